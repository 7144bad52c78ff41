(** What paths mean, independently of the functions of ModelPaths.v. *)
From Coq Require Import String Ascii List Bool Arith.
From Verif Require Import Base ModelPaths.
Import ListNotations.
Open Scope string_scope.
Open Scope list_scope.

(** the name [p] in the directory [d]; where a path starts *)
Definition below (d p : path) : path := Path (absolute d) (parts d ++ parts p).
Definition base (p : path) (here : list string) : list string := if absolute p then [] else here.

(** From the real directory [here], the components [todo] lead to the real path [r], through at most [n]
    symbolic links. *)
Inductive leads (fs : files) : nat -> list string -> list string -> list string -> Prop :=
| leads_here : forall n here, leads fs n here [] here
| leads_up : forall n here todo r, leads fs n (removelast here) todo r -> leads fs n here (".." :: todo) r
| leads_dir : forall n here c todo r, c <> ".." -> fs (here ++ [c]) = Some Dir ->
    leads fs n (here ++ [c]) todo r -> leads fs n here (c :: todo) r
| leads_file : forall n here c x, c <> ".." -> fs (here ++ [c]) = Some (File x) ->
    leads fs n here [c] (here ++ [c])
| leads_link : forall n here c l todo r, c <> ".." -> fs (here ++ [c]) = Some (Link l) ->
    leads fs n (base l here) (parts l ++ todo) r -> leads fs (S n) here (c :: todo) r.

(** a file that can be made: everything but the last component is there *)
Inductive can_make (fs : files) : nat -> list string -> list string -> list string -> Prop :=
| make_here : forall n here c, c <> ".." -> fs (here ++ [c]) = None -> can_make fs n here [c] (here ++ [c])
| make_up : forall n here todo r, can_make fs n (removelast here) todo r -> can_make fs n here (".." :: todo) r
| make_dir : forall n here c todo r, c <> ".." -> fs (here ++ [c]) = Some Dir ->
    can_make fs n (here ++ [c]) todo r -> can_make fs n here (c :: todo) r
| make_link : forall n here c l todo r, c <> ".." -> fs (here ++ [c]) = Some (Link l) ->
    can_make fs n (base l here) (parts l ++ todo) r -> can_make fs (S n) here (c :: todo) r.

(** a path names the file or directory [r]; it holds [x] *)
Definition names (fs : files) (n : nat) (cwd : list string) (p : path) (r : list string) : Prop :=
  leads fs n (base p cwd) (parts p) r.
Definition holds (fs : files) (n : nat) (cwd : list string) (p : path) (x : list byte) : Prop :=
  exists r, names fs n cwd p r /\ fs r = Some (File x).
Definition nowhere (fs : files) (n : nat) (cwd : list string) (p : path) : Prop :=
  forall r, ~ names fs n cwd p r.

(** the last component reads "something.safetensors" *)
Definition is_safetensors (p : list string) : Prop :=
  exists q a s, p = q ++ [String a s ++ ".safetensors"]%string.

(** Where a model named [p] is looked for: an absolute path is itself; a relative one is in the first of the
    directories that has it, or else in the current directory. *)
Inductive found_at (fs : files) (n : nat) (cwd : list string) (dirs : list path) (p : path) : path -> Prop :=
| found_absolute : absolute p = true -> found_at fs n cwd dirs p p
| found_dir : forall before d after r, absolute p = false -> dirs = before ++ d :: after ->
    (forall e, In e before -> nowhere fs n cwd (below e p)) -> names fs n cwd (below d p) r ->
    found_at fs n cwd dirs p (below d p)
| found_here : absolute p = false -> (forall e, In e dirs -> nowhere fs n cwd (below e p)) -> found_at fs n cwd dirs p p.
