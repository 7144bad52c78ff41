(** C102: registered configs can be inferred however they were made *)
From Coq Require Import String Ascii List Bool Arith NArith Lia Sorted Permutation.
From Verif Require Import Base ModelConfigs PropsConfigs ModelConfObj.
Import ListNotations.
Open Scope string_scope.
Open Scope list_scope.
Open Scope nat_scope.

(** the objects are of plain classes and are different objects *)
Definition plain (o : obj) : Prop := o_made o = Plain.
Definition ordinary (objs : list obj) : Prop := Forall plain objs /\ NoDup (map o_at objs).

(** ** the dict holds what the list of affinities holds *)
Lemma loop_plain : forall n sd objs d, Forall plain objs -> NoDup (map o_at (map fst d ++ objs)) ->
  exists a, affinity_loop n sd objs d = Ok (d ++ a) /\ map (fun p => (o_cfg (fst p), snd p)) a = affinities n sd (map o_cfg objs) /\
            (forall p, In p a -> In (fst p) objs).
Proof.
  intros n sd. induction objs as [|o objs IH]; intros d P N.
  - exists []. rewrite app_nil_r. simpl. auto.
  - inversion P as [|? ? Po Pobjs]; subst. cbn [affinity_loop affinities map].
    set (m := matched sd (o_cfg o)).
    set (stop := (m =? n) && (9 * length (c_keys (o_cfg o)) <=? 10 * m)).
    assert (Fresh : forall p, In p d -> o_at (fst p) =? o_at o = false).
    { intros p I. apply Nat.eqb_neq. intros E. rewrite map_app in N. simpl in N. apply NoDup_remove_2 in N. apply N.
      apply in_or_app. left. rewrite <- E. apply in_map, in_map, I. }
    assert (Put : put o m d = Ok (d ++ [(o, m)])).
    { unfold put, hash. rewrite Po. simpl. replace (existsb _ d) with false; auto. symmetry.
      apply not_true_is_false. rewrite existsb_exists. intros (p & I & E). rewrite (Fresh p I) in E. discriminate. }
    assert (N1 : NoDup (map o_at (map fst (d ++ [(o, m)]) ++ objs))).
    { rewrite (map_app fst), <- app_assoc. simpl. exact N. }
    assert (N2 : NoDup (map o_at (map fst d ++ objs))).
    { rewrite !map_app in *. simpl in N. eapply NoDup_remove_1; eauto. }
    destruct (n <=? 10 * m).
    + rewrite Put. cbn [bind]. destruct stop.
      * exists [(o, m)]. repeat split; auto. intros p [<-|[]]; simpl; auto.
      * destruct (IH _ Pobjs N1) as (a & -> & E & I). exists ((o, m) :: a). rewrite <- app_assoc. simpl. rewrite E.
        repeat split; auto. intros p [<-|X]; simpl; auto.
    + cbn [bind app]. destruct stop.
      * exists []. rewrite app_nil_r. repeat split; auto. intros p [].
      * destruct (IH _ Pobjs N2) as (a & -> & E & I). exists a. repeat split; auto. intros; right; auto.
Qed.

Lemma filter_map_fst : forall A B C (f : A -> B) (a : list (A * C)) (p : C -> bool),
  map f (map fst (filter (fun x => p (snd x)) a)) = map fst (filter (fun x => p (snd x)) (map (fun x => (f (fst x), snd x)) a)).
Proof. induction a as [|[x y] a IH]; intros p; simpl; auto. destruct (p y); simpl; rewrite IH; auto. Qed.

(** With plain objects only (all that the library registers), inference gives the objects of the configs that
    C35 speaks of, and never raises. *)
Theorem C102_plain_configs : forall objs sd, ordinary objs ->
  exists groups, infer_objects objs sd = Ok groups /\ map (map o_cfg) groups = infer_model_configs (map o_cfg objs) sd /\
                 (forall g o, In g groups -> In o g -> In o objs).
Proof.
  intros objs sd (P & N). unfold infer_objects, infer_model_configs. set (n := length (nodup string_dec sd)).
  destruct (loop_plain n sd objs [] P N) as (a & E & M & I). rewrite E. simpl.
  eexists. split; [reflexivity|]. rewrite <- M. rewrite !map_map. simpl. split.
  - apply map_ext. intros m. apply (filter_map_fst _ _ _ o_cfg a (fun k => k =? m)).
  - intros g o G O. apply in_map_iff in G as (m & <- & _). apply in_map_iff in O as (p & <- & O). apply filter_In in O as (O & _). auto.
Qed.
Print Assumptions C102_plain_configs.

(** and the config an input gets is the one C35 says, as the registered object *)
Theorem C102_plain_determined : forall objs sd param infer, ordinary objs -> NoDup (map o_id objs) ->
  match param with Some p => In p objs | None => True end ->
  match determine (map o_cfg objs) sd (option_map o_id param) infer with
  | Ok (Some id) => exists o, determine_object objs sd param infer = Ok (Some o) /\ In o objs /\ o_id o = id
  | Ok None => determine_object objs sd param infer = Ok None
  | Err e => determine_object objs sd param infer = Err e
  end.
Proof.
  intros objs sd param infer O NI HP. destruct (C102_plain_configs objs sd O) as (groups & E & M & I).
  destruct O as (P & N). unfold determine, determine_object. rewrite E, <- M. cbn [bind].
  assert (Same : forall p o, In p objs -> In o objs -> (o_at o =? o_at p) = String.eqb (o_id o) (o_id p)).
  { intros p o Ip Io. destruct (Nat.eqb_spec (o_at o) (o_at p)) as [Ea|Ea].
    - assert (o = p); [|subst; symmetry; apply String.eqb_refl].
      clear - N Ip Io Ea. induction objs as [|x l IH]; [contradiction|]. simpl in N. inversion N as [|? ? Nx Nl]; subst.
      destruct Ip as [->|Ip], Io as [->|Io]; auto.
      + exfalso. apply Nx. rewrite <- Ea. apply in_map; auto.
      + exfalso. apply Nx. rewrite Ea. apply in_map; auto.
    - symmetry. apply String.eqb_neq. intros Ei. apply Ea. f_equal.
      clear - NI Ip Io Ei. induction objs as [|x l IH]; [contradiction|]. simpl in NI. inversion NI as [|? ? Nx Nl]; subst.
      destruct Ip as [->|Ip], Io as [->|Io]; auto.
      + exfalso. apply Nx. rewrite <- Ei. apply in_map; auto.
      + exfalso. apply Nx. rewrite Ei. apply in_map; auto. }
  set (wanted := match option_map o_id param with Some id => existsb (existsb (fun c => String.eqb (c_id c) id)) (map (map o_cfg) groups) | None => false end).
  assert (W : (match groups, param with
               | _ :: _, Some p => let* h := hash p in Ok (existsb (existsb (fun o => o_at o =? h)) groups)
               | _, _ => Ok false end) = Ok wanted).
  { unfold wanted. destruct param as [p|]; simpl; [|destruct groups; auto].
    assert (Eh : hash p = Ok (o_at p)). { unfold hash. rewrite Forall_forall in P. rewrite (P p HP). auto. }
    assert (Ex : forall gs, (forall g o, In g gs -> In o g -> In o objs) ->
      existsb (existsb (fun o => o_at o =? o_at p)) gs = existsb (existsb (fun c => String.eqb (c_id c) (o_id p))) (map (map o_cfg) gs)).
    { induction gs as [|g gs IH]; intros J; simpl; auto. f_equal; [|apply IH; intros g' o' G' O'; apply (J g' o'); simpl; auto].
      assert (Jg : forall o, In o g -> In o objs) by (intros o' O'; apply (J g o'); simpl; auto). clear IH J.
      induction g as [|o g IH]; simpl; auto. rewrite (Same p o) by (simpl in *; auto). unfold o_id at 1. f_equal. apply IH. intros; apply Jg; right; auto. }
    destruct groups as [|g gs]; auto. rewrite Eh. cbn [bind]. rewrite Ex; auto. }
  rewrite W. cbn [bind]. destruct wanted eqn:Ew.
  - destruct param as [p|]; simpl in *; [|discriminate]. exists p. auto.
  - destruct groups as [|[|o [|o' g]] gs]; simpl; try (destruct infer; auto; fail).
    exists o. split; auto. split; auto. apply (I [o] o); simpl; auto.
Qed.
Print Assumptions C102_plain_determined.

(** ** dataclass objects *)

(** the objects a search meets before it stops *)
Definition met (objs : list obj) (sd : list string) (o : obj) : Prop :=
  exists a b, objs = a ++ o :: b /\ forall d, In d a -> ~ covers sd (o_cfg d).
Definition tenth (sd : list string) (c : cfg) : Prop := exists m n, match_count sd c m /\ key_count sd n /\ n <= 10 * m.

Lemma covers_bool : forall sd c,
  covers sd c <-> (matched sd c =? length (nodup string_dec sd)) && (9 * length (c_keys c) <=? 10 * matched sd c) = true.
Proof.
  intros sd c. unfold covers. rewrite andb_true_iff, Nat.eqb_eq, Nat.leb_le. split.
  - intros (m & A & B & D). apply matched_count in A. apply key_count_spec in B. subst m. auto.
  - intros (A & B). exists (matched sd c). split; [apply matched_count; auto|]. split; auto. apply key_count_spec; auto.
Qed.
Lemma tenth_bool : forall sd c, tenth sd c <-> (length (nodup string_dec sd) <=? 10 * matched sd c) = true.
Proof.
  intros sd c. unfold tenth. rewrite Nat.leb_le. split.
  - intros (m & n & A & B & D). apply matched_count in A. apply key_count_spec in B. subst. auto.
  - intros H. exists (matched sd c), (length (nodup string_dec sd)). split; [apply matched_count; auto|]. split; auto. apply key_count_spec; auto.
Qed.

Lemma met_cons : forall sd x objs o, met (x :: objs) sd o <-> o = x \/ (~ covers sd (o_cfg x) /\ met objs sd o).
Proof.
  intros sd x objs o. split.
  - intros (a & b & E & N). destruct a as [|y a]; simpl in E; inversion E; subst; auto.
    right. split; [apply N; simpl; auto|]. exists a, b. split; auto. intros; apply N; simpl; auto.
  - intros [->|(N & a & b & -> & H)].
    + exists [], objs. split; [auto|intros d []].
    + exists (x :: a), b. split; [auto|intros d [<-|D]; auto].
Qed.

Lemma loop_raises : forall sd objs d e, affinity_loop (length (nodup string_dec sd)) sd objs d = Err e <->
  e = TypeError /\ exists o, met objs sd o /\ o_made o = Dataclass /\ tenth sd (o_cfg o).
Proof.
  intros sd. induction objs as [|x objs IH]; intros d e; cbn [affinity_loop].
  - split; [discriminate|]. intros (_ & o & (a & b & E & _) & _). destruct a; discriminate.
  - set (n := length (nodup string_dec sd)) in *. set (m := matched sd (o_cfg x)).
    pose proof (tenth_bool sd (o_cfg x)) as Tn. pose proof (covers_bool sd (o_cfg x)) as Cv. fold n m in Tn, Cv.
    assert (Rest : forall d', (if (m =? n) && (9 * length (c_keys (o_cfg x)) <=? 10 * m) then Ok d' else affinity_loop n sd objs d') = Err e <->
                     e = TypeError /\ exists o, (~ covers sd (o_cfg x) /\ met objs sd o) /\ o_made o = Dataclass /\ tenth sd (o_cfg o)).
    { intros d'. destruct ((m =? n) && (9 * length (c_keys (o_cfg x)) <=? 10 * m)).
      - split; [discriminate|]. intros (_ & o & (N & _) & _). exfalso. apply N, Cv. auto.
      - rewrite IH. split; intros (-> & o & A & B & D); split; auto; exists o; split; auto.
        + split; auto. intros C. apply Cv in C. discriminate.
        + destruct A; auto. }
    destruct (n <=? 10 * m) eqn:T10.
    + unfold put, hash. destruct (o_made x) eqn:Mx; cbn [bind].
      * split.
        -- intros H; inversion H. split; auto. exists x. split; [apply met_cons; auto|]. split; auto. apply Tn; auto.
        -- intros (-> & _). auto.
      * rewrite Rest. split; intros (-> & o & A & B & D); split; auto; exists o; split; auto.
        -- apply met_cons; auto.
        -- apply met_cons in A as [->|A]; auto. congruence.
    + cbn [bind]. rewrite Rest. split; intros (-> & o & A & B & D); split; auto; exists o; split; auto.
      * apply met_cons; auto.
      * apply met_cons in A as [->|A]; auto. apply Tn in D. discriminate.
Qed.

(** ** the order of the registered configs *)
Definition id_le (x o : obj) : Prop := String.leb (o_id x) (o_id o) = true.

Lemma leb_trans : forall a b c, String.leb a b = true -> String.leb b c = true -> String.leb a c = true.
Proof.
  unfold String.leb. induction a as [|x a IH]; intros [|y b] [|z c]; simpl; auto; try discriminate.
  unfold Ascii.compare.
  destruct (N.compare_spec (Ascii.N_of_ascii x) (Ascii.N_of_ascii y)) as [E|L|L]; try discriminate;
  destruct (N.compare_spec (Ascii.N_of_ascii y) (Ascii.N_of_ascii z)) as [E'|L'|L']; try discriminate;
  destruct (N.compare_spec (Ascii.N_of_ascii x) (Ascii.N_of_ascii z)) as [E''|L''|L'']; auto; try lia.
  apply IH.
Qed.

Lemma insert_perm : forall o l, Permutation (o :: l) (insert_obj o l).
Proof.
  induction l as [|x l IH]; simpl; auto. destruct (String.leb (o_id x) (o_id o)); auto.
  eapply perm_trans; [apply perm_swap|]. apply perm_skip; auto.
Qed.
Lemma get_all_perm : forall regs, Permutation regs (get_all regs).
Proof. induction regs as [|o l IH]; simpl; auto. eapply perm_trans; [apply perm_skip, IH|apply insert_perm]. Qed.
Lemma insert_obj_sorted : forall o l, StronglySorted (fun a b => id_le b a) l -> StronglySorted (fun a b => id_le b a) (insert_obj o l).
Proof.
  induction l as [|x l IH]; intros S; simpl; [repeat constructor|]. apply StronglySorted_inv in S as H. destruct H as (S1 & F).
  destruct (String.leb (o_id x) (o_id o)) eqn:L.
  - constructor; auto. constructor; auto. eapply Forall_impl; [|exact F]. intros y H. unfold id_le in *. eapply leb_trans; eauto.
  - constructor; auto. apply Forall_forall. intros y Y. eapply Permutation_in in Y; [|apply Permutation_sym, insert_perm].
    destruct Y as [<-|Y]; [|rewrite Forall_forall in F; auto]. unfold id_le. destruct (String.leb_total (o_id o) (o_id x)); auto; congruence.
Qed.
Lemma get_all_sorted : forall regs, StronglySorted (fun a b => id_le b a) (get_all regs).
Proof. induction regs; simpl; [constructor|]. apply insert_obj_sorted; auto. Qed.

(** the larger of two identifiers *)
Definition id_gt (d o : obj) : Prop := id_le o d /\ o_id d <> o_id o.

Lemma met_get_all : forall regs sd o, NoDup (map o_id regs) -> (met (get_all regs) sd o <-> In o regs /\ forall d, In d regs -> id_gt d o -> ~ covers sd (o_cfg d)).
Proof.
  intros regs sd o N.
  assert (N' : NoDup (map o_id (get_all regs))) by (eapply Permutation_NoDup; [apply Permutation_map, get_all_perm|auto]).
  assert (I : forall x, In x (get_all regs) <-> In x regs).
  { intros x. split; apply Permutation_in; [apply Permutation_sym|]; apply get_all_perm. }
  pose proof (get_all_sorted regs) as S. split.
  - intros (a & b & E & H). split; [apply I; rewrite E; apply in_elt|]. intros d D (G1 & G2). apply H. apply I in D. rewrite E in D, S.
    apply in_app_or in D as [D|[->|D]]; auto; [congruence|].
    exfalso. apply G2. apply String.leb_antisym; auto.
    clear - S D. induction a as [|x a IH]; simpl in S; apply StronglySorted_inv in S as (S & F); auto. rewrite Forall_forall in F. apply F in D. auto.
  - intros (Io & H). apply I, in_split in Io as (a & b & E). exists a, b. split; auto. intros d D. apply H.
    + apply I. rewrite E. apply in_or_app; auto.
    + rewrite E in S, N'. split.
      * clear - S D. induction a as [|x a IH]; [contradiction|]. simpl in S. apply StronglySorted_inv in S as (S & F).
        destruct D as [->|D]; auto. rewrite Forall_forall in F. apply F. apply in_elt.
      * intros Ei. rewrite map_app in N'. simpl in N'. apply NoDup_remove_2 in N'. apply N'. apply in_or_app. left. rewrite <- Ei. apply in_map; auto.
Qed.

(** Inferring a config raises exactly when a dataclass object (one made by from_yaml or ModelConfigImpl(...)) is
    registered whose keys make up a tenth of the state dict and the search is not over before it is met: that no
    config of a larger identifier covers the state dict.  The exception is TypeError. *)
Theorem C102_when_inference_raises : forall regs sd e, NoDup (map o_id regs) ->
  (infer_objects (get_all regs) sd = Err e <->
   e = TypeError /\ exists o, In o regs /\ o_made o = Dataclass /\ tenth sd (o_cfg o) /\
                             forall d, In d regs -> id_gt d o -> ~ covers sd (o_cfg d)).
Proof.
  intros regs sd e N. unfold infer_objects.
  pose proof (loop_raises sd (get_all regs) [] e) as L. destruct (affinity_loop _ _ _ _) as [d|e'] eqn:E; cbn [bind].
  - split; [discriminate|]. intros (-> & o & Io & M & T10 & C).
    assert (X : @Ok (list (obj * nat)) d = Err TypeError); [|discriminate]. apply L. split; auto. exists o. split; [apply met_get_all; auto|auto].
  - assert (Eq : Err e' = @Err (list (list obj)) e <-> Err e' = @Err (list (obj * nat)) e) by (split; intros H; inversion H; auto). rewrite Eq, L.
    split; intros (-> & o & A); split; auto; exists o.
    + destruct A as (A & B & C). apply met_get_all in A as (A1 & A2); auto.
    + destruct A as (A & B & C & D). split; auto. apply met_get_all; auto.
Qed.
Print Assumptions C102_when_inference_raises.

(** The claim is false: registering one more config can make inference raise, even of a model whose own config is
    registered and matches all its keys. *)
Definition yaml_a := Obj 0 Plain (Cfg "a-x" ["k1"; "k2"; "k3"] []).
Definition yaml_b := Obj 1 Plain (Cfg "b-x" ["k1"; "k4"] ["k9"]).
Definition impl_c := Obj 2 Dataclass (Cfg "c-x" ["k3"; "k7"; "k8"] []).
Theorem C102_registering_refuted :
  ~ forall regs c sd groups, NoDup (map o_id (regs ++ [c])) -> NoDup (map o_at (regs ++ [c])) ->
      infer_objects (get_all regs) sd = Ok groups -> exists groups', infer_objects (get_all (regs ++ [c])) sd = Ok groups'.
Proof.
  intros H. destruct (H [yaml_a; yaml_b] impl_c ["k1"; "k2"; "k3"] [[yaml_a]; [yaml_b]]) as (g & G).
  - repeat constructor; simpl; intuition discriminate.
  - repeat constructor; simpl; intuition discriminate.
  - reflexivity.
  - vm_compute in G. discriminate.
Qed.
Print Assumptions C102_registering_refuted.

(** A parameter declared with a dataclass config has the same effect: an input without config then raises as
    soon as it matches anything. *)
Theorem C102_dataclass_parameter : forall objs sd p infer, ordinary objs -> o_made p = Dataclass ->
  (exists o m, In o objs /\ accepted (map o_cfg objs) sd (o_cfg o) m) ->
  determine_object objs sd (Some p) infer = Err TypeError.
Proof.
  intros objs sd p infer O D (o & m & Io & A). destruct (C102_plain_configs objs sd O) as (groups & E & M & I).
  unfold determine_object. rewrite E. cbn [bind]. destruct groups as [|g gs].
  - exfalso. unfold infer_model_configs in M. set (n := length (nodup string_dec sd)) in M.
    apply affinities_spec in A. fold n in A. destruct (affinities n sd (map o_cfg objs)) as [|p0 l]; [contradiction|].
    assert (X : In (snd p0) (sort_desc_set (map snd (p0 :: l)))) by (apply sort_desc_In; simpl; auto).
    destruct (sort_desc_set (map snd (p0 :: l))); [contradiction|discriminate].
  - unfold hash. rewrite D. reflexivity.
Qed.
Print Assumptions C102_dataclass_parameter.

(** ** registering a plain config leaves the others as they are *)
Fixpoint aff (n : nat) (sd : list string) (objs : list obj) : list (obj * nat) :=
  match objs with
  | [] => []
  | o :: objs' =>
    let m := matched sd (o_cfg o) in
    (if n <=? 10 * m then [(o, m)] else []) ++
    (if (m =? n) && (9 * length (c_keys (o_cfg o)) <=? 10 * m) then [] else aff n sd objs')
  end.
Lemma loop_aff : forall n sd objs d, Forall plain objs -> NoDup (map o_at (map fst d ++ objs)) ->
  affinity_loop n sd objs d = Ok (d ++ aff n sd objs).
Proof.
  intros n sd. induction objs as [|o objs IH]; intros d P N.
  - rewrite app_nil_r. auto.
  - inversion P as [|? ? Po Pobjs]; subst. cbn [affinity_loop aff].
    set (m := matched sd (o_cfg o)). set (stop := (m =? n) && (9 * length (c_keys (o_cfg o)) <=? 10 * m)).
    assert (Put : put o m d = Ok (d ++ [(o, m)])).
    { unfold put, hash. rewrite Po. simpl. replace (existsb _ d) with false; auto. symmetry.
      apply not_true_is_false. rewrite existsb_exists. intros (p & I & E). apply Nat.eqb_eq in E.
      rewrite map_app in N. simpl in N. apply NoDup_remove_2 in N. apply N.
      apply in_or_app. left. rewrite <- E. apply in_map, in_map, I. }
    assert (N1 : NoDup (map o_at (map fst (d ++ [(o, m)]) ++ objs))).
    { rewrite (map_app fst), <- app_assoc. simpl. exact N. }
    assert (N2 : NoDup (map o_at (map fst d ++ objs))).
    { rewrite !map_app in *. simpl in N. eapply NoDup_remove_1; eauto. }
    destruct (n <=? 10 * m).
    + rewrite Put. cbn [bind]. destruct stop; [rewrite app_nil_r; auto|]. rewrite IH; auto. rewrite <- app_assoc. auto.
    + cbn [bind app]. destruct stop; [rewrite app_nil_r; auto|]. rewrite IH; auto.
Qed.

Definition other (c o : obj) : bool := negb (o_at o =? o_at c).
(** the groups without [c], and without a group that had nothing but [c] *)
Definition without (c : obj) (groups : list (list obj)) : list (list obj) :=
  filter (fun g => match g with [] => false | _ => true end) (map (filter (other c)) groups).

Lemma aff_without : forall c sd a b, ~ covers sd (o_cfg c) -> Forall (fun o => other c o = true) (a ++ b) ->
  filter (fun p => other c (fst p)) (aff (length (nodup string_dec sd)) sd (a ++ c :: b)) = aff (length (nodup string_dec sd)) sd (a ++ b).
Proof.
  intros c sd a b NC F. set (n := length (nodup string_dec sd)).
  assert (Keep : forall l, Forall (fun o => other c o = true) l -> filter (fun p => other c (fst p)) (aff n sd l) = aff n sd l).
  { induction l as [|o l IH]; intros Fl; cbn [aff]; auto. inversion Fl as [|? ? Ho Hl]; subst. rewrite filter_app. f_equal.
    - destruct (n <=? _); simpl; auto. rewrite Ho. auto.
    - destruct (_ && _); auto. }
  induction a as [|o a IH]; cbn [app] in *; cbn [aff].
  - replace ((matched sd (o_cfg c) =? n) && (9 * length (c_keys (o_cfg c)) <=? 10 * matched sd (o_cfg c))) with false.
    + rewrite filter_app, Keep; auto. destruct (n <=? _); simpl; auto. unfold other at 1. rewrite Nat.eqb_refl. auto.
    + symmetry. apply not_true_is_false. intros E. apply NC, covers_bool. auto.
  - inversion F as [|? ? Ho Hl]; subst. rewrite filter_app. f_equal.
    + destruct (n <=? _); simpl; auto. rewrite Ho. auto.
    + destruct (_ && _); auto.
Qed.

Lemma sorted_same : forall l l', StronglySorted (fun a b => b < a) l -> StronglySorted (fun a b => b < a) l' ->
  (forall x : nat, In x l <-> In x l') -> l = l'.
Proof.
  induction l as [|x l IH]; intros l' S S' H.
  - destruct l' as [|y l']; auto. exfalso. apply (H y). simpl; auto.
  - destruct l' as [|y l']; [exfalso; apply (H x); simpl; auto|].
    apply StronglySorted_inv in S as (S & F). apply StronglySorted_inv in S' as (S' & F'). rewrite Forall_forall in F, F'.
    assert (x = y).
    { destruct (proj1 (H x) (or_introl eq_refl)) as [|X]; auto. destruct (proj2 (H y) (or_introl eq_refl)) as [|Y]; auto.
      apply F in Y. apply F' in X. lia. }
    subst y. f_equal. apply IH; auto. intros z. split; intros Z.
    + destruct (proj1 (H z) (or_intror Z)) as [<-|]; auto. apply F in Z. lia.
    + destruct (proj2 (H z) (or_intror Z)) as [<-|]; auto. apply F' in Z. lia.
Qed.
Lemma filter_sorted : forall (f : nat -> bool) l, StronglySorted (fun a b => b < a) l -> StronglySorted (fun a b => b < a) (filter f l).
Proof.
  intros f l S. induction S as [|x l S IH F]; simpl; [constructor|]. destruct (f x); auto. constructor; auto.
  apply Forall_forall. intros y Y. apply filter_In in Y as (Y & _). rewrite Forall_forall in F; auto.
Qed.
Lemma filter_map_comm : forall A B (f : A -> B) (p : B -> bool) l, filter p (map f l) = map f (filter (fun x => p (f x)) l).
Proof. induction l as [|x l IH]; simpl; auto. destruct (p (f x)); simpl; rewrite IH; auto. Qed.
Lemma filter_filter_comm : forall A (p q : A -> bool) l, filter p (filter q l) = filter q (filter p l).
Proof.
  induction l as [|x l IH]; simpl; auto. destruct (q x) eqn:Q, (p x) eqn:P; simpl; rewrite ?P, ?Q, IH; auto.
Qed.

Definition group_by (d : list (obj * nat)) : list (list obj) :=
  map (fun n => map fst (filter (fun p => snd p =? n) d)) (sort_desc_set (map snd d)).
Lemma without_groups : forall c d, without c (group_by d) = group_by (filter (fun p => other c (fst p)) d).
Proof.
  intros c d. unfold without, group_by. rewrite map_map.
  set (g := fun n => map fst (filter (fun p : obj * nat => snd p =? n) (filter (fun p => other c (fst p)) d))).
  assert (E : forall n, filter (other c) (map fst (filter (fun p => snd p =? n) d)) = g n).
  { intros n. unfold g. rewrite filter_map_comm, filter_filter_comm. auto. }
  rewrite (map_ext _ _ E), filter_map_comm. f_equal. apply sorted_same.
  - apply filter_sorted, sort_desc_sorted.
  - apply sort_desc_sorted.
  - intros n. rewrite filter_In, !sort_desc_In. split.
    + intros (_ & G). destruct (g n) as [|o l] eqn:Eg; [discriminate|].
      assert (I : In o (g n)) by (rewrite Eg; simpl; auto). unfold g in I. apply in_map_iff in I as (p & _ & I).
      apply filter_In in I as (I & N). apply Nat.eqb_eq in N. subst n. apply in_map; auto.
    + intros I. apply in_map_iff in I as (p & <- & I). split; [apply in_map; apply filter_In in I; tauto|].
      assert (X : In (fst p) (g (snd p))). { unfold g. apply in_map, filter_In. split; auto. apply Nat.eqb_refl. }
      destruct (g (snd p)); [contradiction|auto].
Qed.

Lemma get_all_split : forall regs c, (forall o, In o regs -> o_id o <> o_id c) ->
  exists a b, get_all (regs ++ [c]) = a ++ c :: b /\ get_all regs = a ++ b.
Proof.
  induction regs as [|o regs IH]; intros c D.
  - exists [], []. auto.
  - destruct (IH c) as (a & b & E1 & E2); [intros; apply D; simpl; auto|]. simpl. unfold get_all in *. rewrite E1, E2.
    pose proof (get_all_sorted (regs ++ [c])) as S. unfold get_all in S. rewrite E1 in S. clear E1 E2 IH.
    induction a as [|x a IHa]; cbn [app insert_obj].
    + destruct (String.leb (o_id c) (o_id o)) eqn:L.
      * exists [o], b. split; auto. destruct b as [|y b]; simpl; auto.
        simpl in S. apply StronglySorted_inv in S as (_ & F). inversion F as [|? ? Hy _]; subst. unfold id_le in Hy.
        rewrite (leb_trans _ _ _ Hy L). auto.
      * exists [], (insert_obj o b). auto.
    + simpl in S. apply StronglySorted_inv in S as (S & F). destruct (String.leb (o_id x) (o_id o)) eqn:L.
      * exists (o :: x :: a), b. auto.
      * destruct (IHa S) as (a' & b' & E1 & E2). exists (x :: a'), b'. rewrite E1, E2. auto.
Qed.

(** A further plain config that does not cover the state dict leaves the other candidates and their order alone. *)
Theorem C102_others_unaffected : forall regs c sd, ordinary (regs ++ [c]) -> NoDup (map o_id (regs ++ [c])) -> ~ covers sd (o_cfg c) ->
  exists groups, infer_objects (get_all (regs ++ [c])) sd = Ok groups /\ infer_objects (get_all regs) sd = Ok (without c groups).
Proof.
  intros regs c sd (P & N) NI NC.
  assert (Di : forall o, In o regs -> o_id o <> o_id c).
  { intros o I E. rewrite map_app in NI. simpl in NI. apply NoDup_remove_2 in NI. apply NI. rewrite app_nil_r, <- E. apply in_map; auto. }
  assert (Da : forall o, In o regs -> other c o = true).
  { intros o I. unfold other. apply negb_true_iff, Nat.eqb_neq. intros E. rewrite map_app in N. simpl in N. apply NoDup_remove_2 in N. apply N.
    rewrite app_nil_r, <- E. apply in_map; auto. }
  destruct (get_all_split regs c Di) as (a & b & E1 & E2).
  pose proof (get_all_perm (regs ++ [c])) as Q1. pose proof (get_all_perm regs) as Q2.
  assert (P1 : Forall plain (get_all (regs ++ [c]))) by (eapply Permutation_Forall; eauto).
  assert (P2 : Forall plain (get_all regs)) by (eapply Permutation_Forall; [apply Q2|]; apply Forall_app in P; tauto).
  assert (N1 : NoDup (map o_at (get_all (regs ++ [c])))) by (eapply Permutation_NoDup; [apply Permutation_map, Q1|auto]).
  assert (N2 : NoDup (map o_at (get_all regs))).
  { eapply Permutation_NoDup; [apply Permutation_map, Q2|]. rewrite map_app in N. apply NoDup_app_iff in N. tauto. }
  unfold infer_objects. rewrite !loop_aff by auto. cbn [bind app]. eexists. split; [reflexivity|].
  change (map (fun n => map fst (filter (fun p => snd p =? n) (aff (length (nodup string_dec sd)) sd (get_all (regs ++ [c])))))
         (sort_desc_set (map snd (aff (length (nodup string_dec sd)) sd (get_all (regs ++ [c]))))))
    with (group_by (aff (length (nodup string_dec sd)) sd (get_all (regs ++ [c])))).
  rewrite without_groups, E1, E2, aff_without; auto.
  apply Forall_forall. intros o I. apply Da. rewrite <- E2 in I. eapply Permutation_in; [apply Permutation_sym, Q2|auto].
Qed.
Print Assumptions C102_others_unaffected.

Definition yaml_c := Obj 2 Plain (Cfg "c-x" ["k3"; "k7"; "k8"] []).
Example ex_C102 :
  ordinary ([yaml_a; yaml_b] ++ [yaml_c]) /\ NoDup (map o_id ([yaml_a; yaml_b] ++ [yaml_c])) /\
  get_all [yaml_a; yaml_b; yaml_c] = [yaml_c; yaml_b; yaml_a] /\
  infer_objects (get_all [yaml_a; yaml_b; yaml_c]) ["k1"; "k2"; "k3"; "k4"] = Ok [[yaml_a]; [yaml_b]; [yaml_c]] /\
  infer_objects (get_all [yaml_a; yaml_b]) ["k1"; "k2"; "k3"; "k4"] = Ok [[yaml_a]; [yaml_b]] /\
  determine_object (get_all [yaml_a; yaml_b; yaml_c]) ["k1"; "k2"; "k3"; "k4"] (Some yaml_b) false = Ok (Some yaml_b) /\
  determine_object (get_all [yaml_a; yaml_b]) ["k1"; "k2"; "k3"; "k4"] (Some impl_c) false = Err TypeError /\
  infer_objects (get_all [yaml_a; yaml_b; impl_c]) ["k1"; "k2"; "k3"; "k4"] = Err TypeError /\
  (** no tenth of the keys is the dataclass config's: nothing happens *)
  infer_objects (get_all [yaml_a; yaml_b; impl_c]) ["k1"; "k2"; "k4"] = Ok [[yaml_b; yaml_a]] /\
  ~ covers ["k1"; "k2"; "k3"; "k4"] (o_cfg yaml_c).
Proof.
  repeat split; try reflexivity; try (repeat constructor; simpl; intuition discriminate).
  rewrite covers_bool. vm_compute. discriminate.
Qed.
