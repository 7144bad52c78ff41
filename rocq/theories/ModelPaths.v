(** Model of how paths are turned into files: [__load_dict] (sd_mecha/merging.py:400-428), the formats of
    models (sd_mecha/extensions/model_formats.py), and the place of the output (merging.py:262-276,
    streaming.py:78-84, 200).  POSIX paths; a file system maps the components of a real path to what is there. *)
From Coq Require Import String Ascii List Bool Arith.
From Verif Require Import Base.
Import ListNotations.
Open Scope string_scope.
Open Scope list_scope.
Open Scope nat_scope.

(** [pathlib.PurePosixPath]: the components, without empty ones and "."; ".." stays.  (The root "//" is not
    told apart from "/".) *)
Record path := Path { absolute : bool; parts : list string }.
(** [a / b] *)
Definition join (a b : path) : path := if absolute b then b else Path (absolute a) (parts a ++ parts b).

(** [pathlib.Path(s)] *)
Fixpoint split_slash (cur : chars) (l : chars) : list chars :=
  match l with
  | [] => [rev cur]
  | c :: l' => if Ascii.eqb c "/" then rev cur :: split_slash [] l' else split_slash (c :: cur) l'
  end.
Definition path_of (s : string) : path :=
  Path (match s2l s with "/"%char :: _ => true | _ => false end)
       (filter (fun c => negb (String.eqb c "" || String.eqb c ".")) (map l2s (split_slash [] (s2l s)))).

(** [path.suffix] (Python up to 3.13): from the last dot, unless it is the first or last character of the name *)
Fixpoint rfind (c : ascii) (l : chars) : option nat :=
  match l with
  | [] => None
  | x :: l' => match rfind c l' with
               | Some i => Some (S i)
               | None => if Ascii.eqb x c then Some 0 else None
               end
  end.
Definition suffix_of (name : string) : string :=
  match rfind "." (s2l name) with
  | Some i => if (0 <? i) && (i <? length (s2l name) - 1) then l2s (skipn i (s2l name)) else ""
  | None => ""
  end.
Definition suffix (p : list string) : string := suffix_of (last p "").

(** ** the file system *)

(** what a file system has at a path *)
Inductive entry := File (content : list byte) | Dir | Link (target : path).
(** a file system: what is at each absolute path without links *)
Definition files := list string -> option entry.
(** a file is written *)
Definition set_file (fs : files) (r : list string) (x : list byte) : files :=
  fun q => if list_eq_dec string_dec q r then Some (File x) else fs q.

(** what to do with a component that does not exist: [stat] and [open(…, "rb")] fail; [open(…, "wb")] creates
    the last one; [path.resolve()] keeps it *)
Inductive mode := Existing | Creating | Lenient.
(** where a relative path starts *)
Definition start (p : path) (here : list string) : list string := if absolute p then [] else here.

(** Following a path from a real directory, with at most [links] symbolic links (the limit of the
    system): the real path.  Permissions are not modelled. *)
Fixpoint follow (fs : files) (m : mode) (links : nat) (here todo : list string) {struct links} : option (list string) :=
  (fix go (here todo : list string) {struct todo} : option (list string) :=
     match todo with
     | [] => Some here
     | c :: todo' =>
       if String.eqb c ".." then go (removelast here) todo'
       else
         match fs (here ++ [c]) with
         | Some Dir => go (here ++ [c]) todo'
         | Some (Link l) =>
           match links with
           | 0 => None
           | S links' => follow fs m links' (start l here) (parts l ++ todo')
           end
         | Some (File _) =>
           match todo', m with
           | [], _ => Some (here ++ [c])
           | _, Lenient => go (here ++ [c]) todo'
           | _, _ => None
           end
         | None =>
           match m, todo' with
           | Existing, _ => None
           | Creating, [] => Some (here ++ [c])
           | Creating, _ => None
           | Lenient, _ => go (here ++ [c]) todo'
           end
         end
     end) here todo.

(** ** the formats of models: model_formats.py *)

(** an identifier, [matches] on the real path, and the reading of a file; any functions *)
Record format (D : Type) := Format {
  f_identifier : string;
  f_matches : list string -> bool;
  f_read : path -> result D }.
Arguments Format {D}. Arguments f_identifier {D}. Arguments f_matches {D}. Arguments f_read {D}.
(** lines 43-58: a registry is a dict from identifiers to formats; the class is given as the format it makes *)
Definition register_format {D} (reg : list (format D)) (f : format D) : result (list (format D)) :=
  if existsb (fun g => String.eqb (f_identifier g) (f_identifier f)) reg then Err ValueError else Ok (reg ++ [f]).

Section Files.
  Variable fs : files.
  (** the current directory, and the limit on symbolic links *)
  Variable cwd : list string.
  Variable links : nat.

  (** where a path leads, if anywhere *)
  Definition leads_to (m : mode) (p : path) : option (list string) := follow fs m links (start p cwd) (parts p).
  (** [p.exists()] *)
  Definition exists_ (p : path) : bool := match leads_to Existing p with Some _ => true | None => false end.

  (** InSafetensorsDict.__init__: streaming.py:78-84, up to the opening of the file; the data are the bytes.
      (Opening a directory raises IsADirectoryError: Unmodelled.) *)
  Definition read_safetensors (p : path) : result (list byte) :=
    if negb (String.eqb (suffix (parts p)) ".safetensors") then Err ValueError
    else match leads_to Existing p with
         | None => Err FileNotFoundError
         | Some r => match fs r with Some (File x) => Ok x | _ => Err Unmodelled end
         end.
  (** model_formats.py:77-95 *)
  Definition single_file : format (list byte) :=
    Format "single_file" (fun r => String.eqb (suffix r) ".safetensors") read_safetensors.

  (** merging.py:404-412 *)
  Fixpoint first_existing (dirs : list path) (p : path) : path :=
    match dirs with
    | [] => p
    | d :: dirs' => if exists_ (join d p) then join d p else first_existing dirs' p
    end.
  Definition locate (dirs : list path) (p : path) : path := if absolute p then p else first_existing dirs p.

  (** merging.py:414-426: the only format that matches reads the file.  [path.resolve()] raises RuntimeError
      for a loop of symbolic links. *)
  Definition pick_format {D} (formats : list (format D)) (r : list string) : result (format D) :=
    match filter (fun f => f_matches f r) formats with
    | [f] => Ok f
    | _ => Err RuntimeError
    end.
  Definition open_path {D} (formats : list (format D)) (q : path) : result D :=
    match leads_to Lenient q with
    | None => Err RuntimeError
    | Some r => let* f := pick_format formats r in f_read f q
    end.
  (** __load_dict for a model that no other node has opened *)
  Definition open_model {D} (formats : list (format D)) (dirs : list path) (p : path) : result D :=
    open_path formats (locate dirs p).
  (** line 417: what the dicts are shared by *)
  Definition cache_key (dirs : list path) (p : path) : option (list string) := leads_to Lenient (locate dirs p).

  (** ** the output: merging.py:270-276 *)
  Definition output_path (dirs : list path) (p : path) : path :=
    if absolute p then p else match dirs with d :: _ => join d p | [] => p end.
  (** streaming.py:200: [file_path.open("wb")]: the real path, and the file system with the file empty *)
  Definition open_output (dirs : list path) (p : path) : result (list string * files) :=
    match leads_to Creating (output_path dirs p) with
    | None => Err FileNotFoundError
    | Some r => match fs r with
                | None | Some (File _) => Ok (r, set_file fs r [])
                | _ => Err Unmodelled
                end
    end.
End Files.
