(** Model of the evaluation of a recipe at a key when merge methods have effects - they draw
    random numbers, or are counted: sd_mecha/merging.py (KeyMergeVisitor), with positional
    inputs only.  A state of any type [S] is threaded through the calls; ModelEval.v is the
    same evaluation for methods that are functions. *)
From Coq Require Import String Ascii List Bool Arith ZArith.
From Verif Require Import Base.
Import ListNotations.
Open Scope string_scope.
Open Scope list_scope.
Open Scope nat_scope.

Section Share.
  Variables (V S : Type).
  (** a computation that may draw random numbers or raise: it gets a state and gives another *)
  Definition comp := S -> result V * S.

  (** what a method receives: a value, or a state dict whose lookups evaluate the input
      again (MergeNodeWrapperStateDict.__getitem__: merging.py:628-630) *)
  Inductive sinput := SVal (v : V) | SGet (get : string -> comp).
  Record smethod := SMethod { sm_lazy : nat -> bool; sm_run : list sinput -> string -> comp }.

  (** a literal or a model, with its depth (0 or 1) and its lookup; a merge node *)
  Inductive snode := SLeaf (depth : nat) (get : string -> result V) | SMerge (m : smethod) (args : list snode).

  (** ModelDepthRecipeVisitor: recipe_nodes.py:223-235.  Simplified: a merge without inputs has
      depth 1, where the code raises *)
  Fixpoint sdepth (n : snode) : nat :=
    match n with
    | SLeaf d _ => d
    | SMerge _ args => Datatypes.S (fold_right Nat.max 0 (map sdepth args))
    end.

  (** an input of a merge: whether it is lazy, its depth, and its evaluation at a key *)
  Record sslot := SSlot { ss_lazy : bool; ss_depth : nat; ss_eval : string -> comp }.

  (** [sorted(indices, key=depth_of_value, reverse=True)]: merging.py:581 *)
  Fixpoint sinsert (x : nat * sslot) (l : list (nat * sslot)) : list (nat * sslot) :=
    match l with
    | [] => [x]
    | y :: l' => if ss_depth (snd y) <? ss_depth (snd x) then x :: l else y :: sinsert x l'
    end.
  Definition sorder (l : list (nat * sslot)) : list (nat * sslot) := fold_left (fun acc x => sinsert x acc) l [].

  (** merging.py:581-591: every input is visited, the last exception is kept *)
  Fixpoint svisit (key : string) (l : list (nat * sslot)) (held : option exn) (merged : list (nat * sinput)) (s : S)
      : (list (nat * sinput) * option exn) * S :=
    match l with
    | [] => ((merged, held), s)
    | (i, x) :: l' =>
      if ss_lazy x then svisit key l' held ((i, SGet (ss_eval x)) :: merged) s
      else match ss_eval x key s with
           | (Ok v, s') => svisit key l' held ((i, SVal v) :: merged) s'
           | (Err e, s') => svisit key l' (Some e) merged s'
           end
    end.

  (** [merged.get(index) for index in range(...)]: merging.py:589 *)
  Fixpoint scollect (merged : list (nat * sinput)) (from n : nat) : result (list sinput) :=
    match n with
    | 0 => Ok []
    | Datatypes.S n' =>
      match dget Nat.eqb from merged with
      | Some v => let* l := scollect merged (Datatypes.S from) n' in Ok (v :: l)
      | None => Err Unmodelled   (* every index is visited *)
      end
    end.

  (** visit_merge: merging.py:557-564, 566-592 *)
  Definition srun_merge (m : smethod) (slots : list sslot) (key : string) : comp := fun s =>
    let r := svisit key (sorder (combine (seq 0 (length slots)) slots)) None [] s in
    match snd (fst r) with
    | Some e => (Err e, snd r)
    | None =>
      match scollect (fst (fst r)) 0 (length slots) with
      | Ok args => sm_run m args key (snd r)
      | Err e => (Err e, snd r)
      end
    end.

  (** the inputs with their types: merging.py:578-587 *)
  Fixpoint slots_of (m : smethod) (i : nat) (l : list (nat * (string -> comp))) : list sslot :=
    match l with
    | [] => []
    | (d, f) :: l' => SSlot (sm_lazy m i) d f :: slots_of m (Datatypes.S i) l'
    end.

  (** KeyMergeVisitor: merging.py:529-592.  Nothing is remembered from one visit of a node to the next *)
  Fixpoint srun (n : snode) : string -> comp :=
    match n with
    | SLeaf _ get => fun key s => (get key, s)
    | SMerge m args => srun_merge m (slots_of m 0 (map (fun a => (sdepth a, srun a)) args))
    end.
End Share.
Arguments SVal {V S} v.
Arguments SGet {V S} get.
Arguments SMethod {V S} sm_lazy sm_run.
Arguments sm_lazy {V S}.
Arguments sm_run {V S}.
Arguments SLeaf {V S} depth get.
Arguments SMerge {V S} m args.
Arguments sdepth {V S} n.
Arguments srun {V S} n.
Arguments SSlot {V S}.
Arguments ss_lazy {V S}.
Arguments ss_depth {V S}.
Arguments ss_eval {V S}.

(** a method of values that is a function of them, counting its calls *)
Definition vals {V S} (ins : list (sinput V S)) : list V :=
  fold_right (fun i l => match i with SVal v => v :: l | SGet _ => l end) [] ins.
Definition counted {V} (f : list V -> string -> result V) : smethod V nat :=
  SMethod (fun _ => false) (fun ins key s => (f (vals ins) key, S s)).

(** a source of entropy: what the operating system gives at the first, second, ... request.
    dropout, builtin/merge_methods/__init__.py:597: [np.random.default_rng(seed)] asks for entropy when the seed is None,
    and depends on the seed alone otherwise.  [rng] is the generator that a seed or entropy starts *)
Definition entropy (A : Type) : Type := ((nat -> A) * nat)%type.
Definition drawing {V A} (f : A -> list V -> string -> result V) (seed : option A) : smethod V (entropy A) :=
  SMethod (fun _ => false) (fun ins key s =>
    match seed with
    | Some a => (f a (vals ins) key, s)
    | None => (f (fst s (snd s)) (vals ins) key, (fst s, S (snd s)))
    end).
(** a method that is a function of its inputs *)
Definition plain {V S} (f : list V -> string -> result V) : smethod V S :=
  SMethod (fun _ => false) (fun ins key s => (f (vals ins) key, s)).
