(** What is expected of calls that share a cache *)
From Coq Require Import String List.
From Verif Require Import Base ModelCache.
Import ListNotations.

(** no two threads use the same key *)
Fixpoint apart (l : list (list string)) : Prop :=
  match l with
  | [] => True
  | ks :: l' => (forall k, In k ks -> forall ks', In ks' l' -> ~ In k ks') /\ apart l'
  end.

Section Spec.
  Context {X A M V W R : Type} (whole : A -> bool) (procrustes : X -> bool -> M) (eig : M -> V * W) (inv : W -> W)
    (half : M -> M) (halfV : V -> V) (halfW : W -> W).

  (** the rotation a call needs *)
  Definition rot (q : call) : M := procrustes (k_input q) (whole (k_how q)).
  (** what is stored for a call loses nothing *)
  Definition stored_exactly (q : call) : Prop :=
    half (rot q) = rot q /\
    (whole (k_how q) = true ->
     halfV (fst (eig (rot q))) = fst (eig (rot q)) /\ halfW (snd (eig (rot q))) = snd (eig (rot q)) /\
     halfW (inv (snd (eig (rot q)))) = inv (snd (eig (rot q)))).
  (** calls with the same key need the same rotation *)
  Definition one_rotation (qs : list call) : Prop :=
    forall q q', In q qs -> In q' qs -> k_key q = k_key q' -> rot q = rot q'.
  (** each thread has made its first calls, and each of them gave what [f] says *)
  Definition all_give (f : call -> R) (work : list (list call)) (l : list (@thread X A M V W R)) : Prop :=
    Forall2 (fun qs t => exists n, t_done t = map (fun q => (q, Ok (f q))) (firstn n qs) /\ t_todo t = skipn n qs) work l.
End Spec.
