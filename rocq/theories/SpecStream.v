(** Vocabulary of the streaming properties (C05-C15): what was written, when a
    history is complete, what a crash leaves behind. *)
From Coq Require Import String Ascii List Bool Arith NArith.
From Verif Require Import Base Json ModelStream.
Import ListNotations.

(** the pairs (key, tensor) handed to the output file in a history *)
Definition written (ops : list op) : list (string * tensor) :=
  flat_map (fun o => match o with Call _ k t => [(k, t)] | Run _ => [] end) ops.

(** no thread is inside [out[k] = t] *)
Definition quiescent (s : ost) : Prop := forall tid ts, In (tid, ts) (o_thr s) -> ts_pc ts = Idle.

(** keys are distinct, none is the reserved one, tensors have the bytes their
    dtype and shape call for *)
Definition good_calls (l : list (string * tensor)) : Prop :=
  NoDup ("__metadata__"%string :: map fst l) /\ Forall (fun kt => wf_tensor (snd kt)) l.

(** header declaring exactly the given tensors *)
Definition decls_of (l : list (string * tensor)) : list (string * (option dtype * option (list N))) :=
  map (fun kt => (fst kt, (Some (t_dtype (snd kt)), Some (t_shape (snd kt))))) l.

(** no raw transfer is cut short: the buffers, tensors and headers fit in [cap] *)
Definition transfers_fit (cap : nat) (declared : list (string * (option dtype * option (list N))))
    (recipe : option string) (minbuf : nat) (l : list (string * tensor)) : Prop :=
  8 <= cap /\ (N.of_nat cap < 2 ^ 64)%N /\ minbuf <= cap /\
  (forall k t, In (k, t) l -> length (t_bytes t) <= cap) /\
  max_header declared recipe <= cap /\ max_header (decls_of l) recipe <= cap.

(** the process dies after some of the writes [W], possibly in the middle of one *)
Definition crash (W : list (nat * list byte)) (f : list byte) : Prop :=
  f = apply_writes [] W \/
  exists W1 p d d' W2, W = W1 ++ (p, d ++ d') :: W2 /\ f = apply_writes [] (W1 ++ [(p, d)]).

(** opening the file raises *)
Definition unreadable (cap : nat) (f : list byte) : Prop := exists e, forall bufsize, in_open cap f bufsize = Err e.

(** largest tensor thread [tid] handed over *)
Definition largest (tid : nat) (ops : list op) : nat :=
  fold_right (fun o m => match o with
                         | Call i _ t => if Nat.eqb i tid then Nat.max (length (t_bytes t)) m else m
                         | Run _ => m end) 0 ops.
