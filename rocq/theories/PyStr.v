(** Python string built-ins used by several models (8-bit characters). *)
From Coq Require Import String Ascii List Bool Arith NArith Lia.
From Verif Require Import Base.
Import ListNotations.

(** [str.isspace] on one character below 256 *)
Definition py_isspace (c : ascii) : bool :=
  let n := N_of_ascii c in
  ((9 <=? n) && (n <=? 13) || (28 <=? n) && (n <=? 32) || (n =? 133) || (n =? 160))%N.

Fixpoint lstrip (l : chars) : chars :=
  match l with
  | c :: l' => if py_isspace c then lstrip l' else l
  | [] => []
  end.

Definition rstrip (l : chars) : chars := rev (lstrip (rev l)).

(** [str.strip()] *)
Definition strip (l : chars) : chars := rstrip (lstrip l).

(** [s.startswith(p)] *)
Fixpoint starts_with (p l : chars) : bool :=
  match p, l with
  | [], _ => true
  | _, [] => false
  | a :: p', b :: l' => Ascii.eqb a b && starts_with p' l'
  end.

Lemma starts_with_spec : forall p l, starts_with p l = true <-> exists r, l = p ++ r.
Proof.
  induction p as [|a p IH]; intros l; simpl.
  - split; eauto.
  - destruct l as [|b l]; [split; [discriminate|intros [r H]; discriminate]|].
    rewrite andb_true_iff, IH, Ascii.eqb_eq. split.
    + intros (-> & r & ->); eauto.
    + intros (r & H); inversion H; eauto.
Qed.

(** [s.endswith(p)] *)
Definition ends_with (p l : chars) : bool := starts_with (rev p) (rev l).

Lemma lstrip_head : forall c l, py_isspace c = false -> lstrip (c :: l) = c :: l.
Proof. intros c l H; simpl; rewrite H; auto. Qed.

Lemma lstrip_spaces : forall n l, lstrip (repeat " "%char n ++ l) = lstrip l.
Proof. induction n; intros; simpl; auto. Qed.

Lemma rstrip_spaces : forall n l, rstrip (l ++ repeat " "%char n) = rstrip l.
Proof.
  intros n l. unfold rstrip. rewrite rev_app_distr.
  assert (rev (repeat " "%char n) = repeat " "%char n) as ->.
  { induction n; simpl; auto. rewrite IHn. clear. induction n; simpl; auto. rewrite <- IHn; auto. }
  rewrite lstrip_spaces; auto.
Qed.

Lemma rstrip_last : forall l c, py_isspace c = false -> rstrip (l ++ [c]) = l ++ [c].
Proof.
  intros l c H. unfold rstrip. rewrite rev_app_distr. simpl. rewrite H. simpl.
  rewrite rev_involutive. auto.
Qed.

(** a text that starts and ends with a visible character *)
Lemma strip_id : forall c l d, py_isspace c = false -> py_isspace d = false ->
  strip (c :: l ++ [d]) = c :: l ++ [d].
Proof.
  intros c l d Hc Hd. unfold strip. rewrite lstrip_head by auto.
  rewrite app_comm_cons. apply rstrip_last; auto.
Qed.

Lemma strip_id_spaces : forall c l d n, py_isspace c = false -> py_isspace d = false ->
  strip ((c :: l ++ [d]) ++ repeat " "%char n) = c :: l ++ [d].
Proof.
  intros c l d n Hc Hd. unfold strip.
  rewrite <- app_comm_cons, lstrip_head, app_comm_cons by auto.
  rewrite rstrip_spaces, app_comm_cons. apply rstrip_last; auto.
Qed.
