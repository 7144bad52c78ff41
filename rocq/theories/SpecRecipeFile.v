(** What it means for a file to hold a recipe, independently of ModelRecipeFile.v. *)
From Coq Require Import String Ascii List Bool Arith.
From Verif Require Import Base Json PyStr ModelRecipe SpecRecipe.
Import ListNotations.
Open Scope string_scope.
Open Scope list_scope.

(** the last component reads "something.mecha" *)
Definition is_mecha (p : list string) : Prop := exists q a s, p = q ++ [String a s ++ ".mecha"]%string.

(** a file reads as a text: each of "\r\n", "\r" and "\n" ends a line *)
Inductive reads_as : chars -> chars -> Prop :=
| reads_nil : reads_as [] []
| reads_crlf : forall x t, reads_as x t -> reads_as (c_cr :: c_nl :: x) (c_nl :: t)
| reads_cr : forall x t, (forall y, x <> c_nl :: y) -> reads_as x t -> reads_as (c_cr :: x) (c_nl :: t)
| reads_char : forall c x t, c <> c_cr -> reads_as x t -> reads_as (c :: x) (c :: t).

(** a string without a carriage return; the strings and names of an object have none *)
Definition cr_free (s : string) : Prop := ~ In c_cr (s2l s).
Definition no_cr (v : pyobj) : Prop :=
  match v with
  | VStr s | VFloat s => cr_free s
  | VDict l => forall k w, In (k, w) l -> cr_free k
  | VLit _ c s => match c with Some c => cr_free c | None => True end /\ cr_free s
  | VModel p c s => cr_free p /\ match c with Some c => cr_free c | None => True end /\ cr_free s
  | VMerge m _ kwargs => cr_free m /\ forall k w, In (k, w) kwargs -> cr_free k
  | _ => True
  end.

(** the same text with the line ends of Windows, and of old Macs *)
Inductive same_lines (e : chars) : chars -> chars -> Prop :=
| same_nil : same_lines e [] []
| same_end : forall t x, same_lines e t x -> same_lines e (c_nl :: t) (e ++ x)
| same_char : forall c t x, c <> c_nl -> same_lines e t x -> same_lines e (c :: t) (c :: x).
