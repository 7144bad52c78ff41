(** What the properties C31 to C33 talk about: the model nodes of a recipe, the buffers in
    use.  Nothing here mentions the visitors. *)
From Coq Require Import String List Bool Arith NArith.
From Verif Require Import Base Dec Json ModelStream ModelOpen.
Import ListNotations.
Open Scope list_scope.
Open Scope nat_scope.

(** the model nodes in a recipe, with their paths, wherever they are *)
Fixpoint inputs (n : onode) : list (nat * string) :=
  match n with
  | OLit => []
  | ODict vals => flat_map (fun v => match v with Some c => inputs c | None => [] end) vals
  | OModel id path => [(id, path)]
  | OMerge children => flat_map inputs children
  end.

(** the ones that are not inside a dict *)
Fixpoint outside (n : onode) : list (nat * string) :=
  match n with
  | OLit | ODict _ => []
  | OModel id path => [(id, path)]
  | OMerge children => flat_map outside children
  end.

(** every dict holds recipes only, or plain data only *)
Fixpoint uniform (n : onode) : Prop :=
  match n with
  | OLit | OModel _ _ => True
  | ODict vals =>
    (forall v, In v vals -> v = None) \/
    ((forall v, In v vals -> v <> None) /\
     (fix each l := match l with [] => True | Some v :: l' => uniform v /\ each l' | None :: l' => each l' end) vals)
  | OMerge children => (fix each l := match l with [] => True | v :: l' => uniform v /\ each l' end) children
  end.

(** a node has one path *)
Definition one_path_each (n : onode) : Prop :=
  forall id p p', In (id, p) (inputs n) -> In (id, p') (inputs n) -> p = p'.

(** an input file of any content, opened with a buffer of [size] bytes, after any reads of
    tensors that fit in that buffer *)
Definition fits_entry (size : nat) (v : json) : Prop :=
  forall d sh a b, entry_info v = Ok (d, sh, a, b) -> N.to_nat b - N.to_nat a <= size.
Inductive reader (cap size : nat) : ins -> Prop :=
| reader_open : forall f s, in_open cap f size = Ok s -> reader cap size s
| reader_get : forall s k, reader cap size s ->
    (forall v, dget String.eqb k (in_header s) = Some v -> fits_entry size v) ->
    reader cap size (snd (in_get cap s k)).

(** an output file with buffers of [size] bytes, written by the threads of [tids], after any
    steps storing tensors that fit *)
Definition fitting (tids : list nat) (size : nat) (o : op) : Prop :=
  match o with Call tid _ t => In tid tids /\ length (t_bytes t) <= size | Run _ => True end.
Definition writer (cap size : nat) (tids : list nat) (s : ost) : Prop :=
  exists declared recipe ops, Forall (fitting tids size) ops /\ orun cap (out_open declared recipe size) ops = Some s.

Definition sum (l : list nat) : nat := fold_right plus 0 l.
Definition read_buffers (rs : list ins) : nat := sum (map (fun r => length (cur_buf r)) rs).
Definition write_buffers (s : ost) : nat := sum (map (fun t => length (ts_buf (snd t))) (o_thr s)).
