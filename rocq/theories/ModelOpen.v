(** Model of opening and closing the inputs of a recipe: [open_input_dicts] and its two
    visitors (merging.py:344-428, 511-526), and of the buffer sizes [merge] chooses
    (merging.py:142-146, 170).  A handle is an open (or closed) input file. *)
From Coq Require Import String List Bool Arith.
From Verif Require Import Base.
Import ListNotations.
Open Scope list_scope.
Open Scope nat_scope.

(** recipes as the visitors see them: a literal that is not a dict; a dict whose values are
    nodes or plain data; a model node (an object: the same number is the same node) with its
    path; a merge *)
Inductive onode :=
| OLit
| ODict (vals : list (option onode))
| OModel (id : nat) (path : string)
| OMerge (children : list onode).

(** handles (path, still open), the visitor's cache from resolved paths to handles, the
    [state_dict] of each model node, and how many operations that can raise have been made *)
Record ostate := OS {
  s_handles : list (string * bool);
  s_cache : list (string * nat);
  s_nodes : list (nat * nat);
  s_tick : nat }.

Section Open.
  (** where a path leads (model_dirs and the file system), and which operations raise:
      any functions *)
  Variable resolve : string -> string.
  Variable raises : nat -> option exn.

  (** an operation that may raise has been done *)
  Definition tick (s : ostate) : ostate := OS (s_handles s) (s_cache s) (s_nodes s) (S (s_tick s)).

  (** an operation that may raise *)
  Definition attempt (s : ostate) : ostate * option exn := (tick s, raises (s_tick s)).

  (** __load_dict: merging.py:400-428; finding the format, opening the file and reading its
      header raise before there is a handle to speak of (an unreferenced file object is closed
      by its destructor) *)
  Definition load_model (s : ostate) (id : nat) (path : string) : ostate * option exn :=
    match dget Nat.eqb id (s_nodes s) with
    | Some _ => (s, None)
    | None =>
      let p := resolve path in
      match dget String.eqb p (s_cache s) with
      | Some h => (OS (s_handles s) (s_cache s) (dset Nat.eqb id h (s_nodes s)) (s_tick s), None)
      | None =>
        match raises (s_tick s) with
        | Some e => (tick s, Some e)
        | None =>
          let h := length (s_handles s) in
          (OS (s_handles s ++ [(p, true)]) (dset String.eqb p h (s_cache s)) (dset Nat.eqb id h (s_nodes s)) (S (s_tick s)), None)
        end
      end
    end.

  (** the second action, unless the first one raised *)
  Definition andthen (r : ostate * option exn) (f : ostate -> ostate * option exn) : ostate * option exn :=
    match r with (s, None) => f s | (s, Some e) => (s, Some e) end.

  (** LoadInputDictsVisitor: merging.py:373-398; determining and checking the config
      may raise, and so may looking up the config of a merge's parameter *)
  Fixpoint load (n : onode) (s : ostate) {struct n} : ostate * option exn :=
    match n with
    | OLit => (s, None)
    | ODict vals =>
      andthen
        ((fix each l s := match l with
                          | [] => (s, None)
                          | Some v :: l' => andthen (load v s) (each l')
                          | None :: l' => each l' s
                          end) vals s)
        attempt
    | OModel id path => andthen (load_model s id path) attempt
    | OMerge children =>
      (fix each l s := match l with
                       | [] => (s, None)
                       | v :: l' => andthen (attempt s) (fun s => andthen (load v s) (each l'))
                       end) children s
    end.

  (** CloseInputDictsVisitor: merging.py:511-526 *)
  Definition close_handle (h : nat) (l : list (string * bool)) : list (string * bool) :=
    map (fun x => if fst x =? h then (fst (snd x), false) else snd x) (combine (seq 0 (length l)) l).
  Definition close_model (s : ostate) (id : nat) : ostate :=
    match dget Nat.eqb id (s_nodes s) with
    | Some h => OS (close_handle h (s_handles s)) (s_cache s) (ddel Nat.eqb id (s_nodes s)) (s_tick s)
    | None => s
    end.
  Fixpoint close (n : onode) (s : ostate) {struct n} : ostate * option exn :=
    match n with
    | OLit => (s, None)
    | ODict vals =>
      match vals with
      | None :: _ => (s, None)
      | _ =>
        (fix each l s := match l with
                         | [] => (s, None)
                         | Some v :: l' => andthen (close v s) (each l')
                         | None :: l' => (s, Some AttributeError)   (* a tensor has no accept() *)
                         end) vals s
      end
    | OModel id _ => (close_model s id, None)
    | OMerge children =>
      (fix each l s := match l with [] => (s, None) | v :: l' => andthen (close v s) (each l') end) children s
    end.

  (** no file is open *)
  Definition opened0 : ostate := OS [] [] [] 0.

  (** open_input_dicts: the inputs are loaded, the body runs (and leaves the handles alone,
      and may raise [body]), the inputs are closed; an exception of the closing wins *)
  Definition with_inputs (n : onode) (body : option exn) : ostate * option exn :=
    let '(s, e) := load n opened0 in
    let failure := match e with Some _ => e | None => body end in
    let '(s', e') := close n s in
    (s', match e' with Some _ => e' | None => failure end).
End Open.

(** ** buffer sizes: merging.py:142-148, 170 *)

(** ModelsCountVisitor: recipe_nodes.py:238-255; a node counts once, dicts are not entered *)
Fixpoint count_models (n : onode) (seen : list nat) : nat * list nat :=
  match n with
  | OLit | ODict _ => (0, seen)
  | OModel id _ => ((if existsb (Nat.eqb id) seen then 0 else 1), seen ++ [id])
  | OMerge children =>
    (fix each l seen := match l with
                        | [] => (0, seen)
                        | v :: l' => let '(a, s1) := count_models v seen in let '(b, s2) := each l' s1 in (a + b, s2)
                        end) children seen
  end.

(** merging.py:142-145: the inputs that are models, and the output if it is a file *)
Definition total_files_open (n : onode) (to_file : bool) : nat := fst (count_models n []) + (if to_file then 1 else 0).
(** merging.py:146 *)
Definition buffer_size_per_file (n : onode) (to_file : bool) (total : nat) : nat := total / Nat.max 1 (total_files_open n to_file).
(** merging.py:170 *)
Definition buffer_size_per_thread (n : onode) (to_file : bool) (total threads : nat) : nat :=
  buffer_size_per_file n to_file total / Nat.max 1 threads.
