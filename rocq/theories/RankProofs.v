(** The target rank of truncate_rank in exact arithmetic. *)
From Coq Require Import Reals ZArith Lia Lra.
From Verif Require Import Base ModelNum ModelDrop ModelRegion PropsRegion.
From Verif Require ModelRank.
Import ModelRank.
Open Scope R_scope.

Lemma target_exact : forall r (x : R),
  target_rank exact r x = Z.to_nat (Z.min (Z.max (py_round (IZR (Z.of_nat r) * x)) 1) (Z.of_nat r)).
Proof. reflexivity. Qed.

(** It is between 1 and the full rank, grows with the ratio, is 1 for ratios of at most 0 and full for
    ratios of at least 1, and otherwise within one half of the ratio of the full rank. *)
Theorem C78_target_rank : forall r (x y : R), (1 <= r)%nat ->
  (1 <= target_rank exact r x <= r)%nat /\
  (x <= y -> (target_rank exact r x <= target_rank exact r y)%nat) /\
  (x <= 0 -> target_rank exact r x = 1%nat) /\
  (1 <= x -> target_rank exact r x = r) /\
  (1 <= INR r * x <= INR r -> Rabs (INR (target_rank exact r x) - INR r * x) <= 1 / 2).
Proof.
  intros r x y H. rewrite !target_exact. rewrite INR_IZR_INZ. set (n := IZR (Z.of_nat r)).
  assert (1 <= n) as N by (apply IZR_le; lia). split; [lia|]. split; [|split; [|split]].
  - intros L. assert (n * x <= n * y) as M by nra. apply py_round_mono in M. lia.
  - intros L. assert (n * x <= 0) as M by nra. apply py_round_mono in M. change 0 with (IZR 0) in M. rewrite py_round_int in M. lia.
  - intros L. assert (n <= n * x) as M by nra. apply py_round_mono in M. unfold n at 1 in M. rewrite py_round_int in M. lia.
  - intros [L U]. apply py_round_mono in L, U. change 1 with (IZR 1) in L. unfold n at 2 in U. rewrite py_round_int in L, U.
    rewrite Z.max_l by lia. rewrite Z.min_l by lia. rewrite INR_IZR_INZ, Z2Nat.id by lia.
    pose proof (py_round_near (n * x)). apply Rabs_le. lra.
Qed.
Example C78_target_case : target_rank exact 4 1 = 4%nat.
Proof. apply (C78_target_rank 4 1 0); [lia|lra]. Qed.
Lemma full_rank : forall r, (1 <= r)%nat -> target_rank exact r (1 : R) = r.
Proof. intros r H. apply (C78_target_rank r 1 0); [auto|lra]. Qed.
Print Assumptions C78_target_rank.
Lemma zero_ratio : forall r, target_rank exact (S r) (0 : R) = 1%nat.
Proof. intros r. apply (C78_target_rank (S r) 0 0); [lia|lra]. Qed.
