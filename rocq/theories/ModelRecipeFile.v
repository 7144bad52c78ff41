(** Model of recipe files: [deserialize_path] (sd_mecha/serialization.py:11-19), the [output] of [serialize]
    (serialization.py:155-166), and reading the lines of an open file (examples/recipe_deserialize.py:7-8).
    The file system is that of ModelPaths.v.  Characters are bytes: the encoding of the locale is not modelled. *)
From Coq Require Import String Ascii List Bool Arith.
From Verif Require Import Base Json PyStr ModelPaths ModelRecipe ModelSerial.
Import ListNotations.
Open Scope string_scope.
Open Scope list_scope.
Open Scope nat_scope.

(** [open(p, "r").read()]: a file open for text translates "\r\n" and "\r" to "\n": serialization.py:16-17 *)
Fixpoint universal_newlines (l : chars) : chars :=
  match l with
  | [] => []
  | c :: l' =>
    if Ascii.eqb c c_cr then
      match l' with
      | d :: l'' => if Ascii.eqb d c_nl then c_nl :: universal_newlines l'' else c_nl :: universal_newlines l'
      | [] => [c_nl]
      end
    else c :: universal_newlines l'
  end.

(** [f.readlines()]: the lines, each with the "\n" that ends it: examples/recipe_deserialize.py:8 *)
Fixpoint readlines (l : chars) : list chars :=
  match l with
  | [] => []
  | c :: l' =>
    if Ascii.eqb c c_nl then [c] :: readlines l'
    else match readlines l' with
         | [] => [[c]]
         | x :: xs => (c :: x) :: xs
         end
  end.

Section Files.
  Variable fs : files.
  Variable cwd : list string.
  Variable links : nat.

  (** [open(p, "r")] and what it reads.  (A directory raises IsADirectoryError: Unmodelled.) *)
  Definition read_text (p : path) : result chars :=
    match leads_to fs cwd links Existing p with
    | None => Err FileNotFoundError
    | Some r => match fs r with Some (File x) => Ok (universal_newlines x) | _ => Err Unmodelled end
    end.

  (** deserialize_path: serialization.py:11-19 *)
  Definition deserialize_path (E : env) (p : path) : result pyobj :=
    if negb (exists_ fs cwd links p) then Err ValueError
    else if String.eqb (suffix (parts p)) ".mecha" then let* t := read_text p in deserialize E t
    else Err ValueError.

  (** [p.write_text(t)] for an absolute [p]: serialization.py:164 *)
  Definition write_text (p : path) (t : chars) : result files :=
    let* o := open_output fs cwd links [] p in Ok (set_file (snd o) (fst o) t).

  (** [serialize(r, output=p)]: serialization.py:153-166.  The text is made before the file is opened; the result
      comes with the file system afterwards.  ([output.absolute()] is the path from the current directory, which
      is where a relative path starts in ModelPaths.v.) *)
  Definition serialize_to (v : pyobj) (output : option path) : result chars * files :=
    match serialize v with
    | Err e => (Err e, fs)
    | Ok t =>
      match output with
      | None => (Ok t, fs)
      | Some p => match write_text p t with
                  | Err e => (Err e, fs)
                  | Ok fs' => (Ok t, fs')
                  end
      end
    end.

  (** examples/recipe_deserialize.py:7-8: [deserialize(f.readlines())] *)
  Definition deserialize_readlines (E : env) (p : path) : result pyobj :=
    let* t := read_text p in deserialize_lines E (readlines t).
End Files.
