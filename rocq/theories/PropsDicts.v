(** C125: dicts of values *)
From Coq Require Import String Ascii List Bool Arith ZArith Lia.
From Verif Require Import Base ModelRecipe ModelUse SpecDicts.
From Verif Require ModelMerge.
Import ListNotations.
Open Scope string_scope.
Open Scope list_scope.
Open Scope nat_scope.

Lemma node_kind : forall v, is_node v = true <-> of_kind KRecipe v.
Proof. intros [ | | | | | | | | | | ]; split; intro H; try discriminate; try constructor; inversion H. Qed.

Lemma kind_exists : forall v, match v with VPath _ | VDict _ => True | _ => exists K, of_kind K v end.
Proof. intros [ | | | | | | | | | | ]; try exact I; eexists; constructor. Qed.
Lemma kind_unique : forall K K' v, of_kind K v -> of_kind K' v -> K = K'.
Proof. intros K K' v H H'. destruct H; inversion H'; reflexivity. Qed.
Lemma same_kind_spec : forall K first v, of_kind K first -> (same_kind first v = true <-> of_kind K v).
Proof.
  intros K first v H. destruct H; cbn [same_kind]; try apply node_kind;
    (destruct v; split; intro X; try discriminate; try constructor; try reflexivity; inversion X).
Qed.
Lemma same_kinds : forall K first l, of_kind K first ->
  (forallb (fun kv => same_kind first (snd kv)) l = true <-> values (of_kind K) l).
Proof.
  intros K first l H. rewrite forallb_forall. unfold values. split.
  - intros F k v I. apply (same_kind_spec K first); auto. apply (F (k, v) I).
  - intros F (k, v) I. apply (same_kind_spec K first); auto. exact (F k v I).
Qed.

(** what map_kres collects *)
Lemma collect : forall A B (f : A -> result B) (t : B -> bool) l r, map_kres f l = Ok r ->
  (forallb (fun kb => t (snd kb)) r = true <-> forall k v, In (k, v) l -> exists b, f v = Ok b /\ t b = true).
Proof.
  intros A B f t. induction l as [|[k v] l IH]; intros r; cbn [map_kres].
  - intro H; injection H as <-. split; [intros _ ? ? []|reflexivity].
  - destruct (f v) as [b|e] eqn:F; cbn [bind]; [|discriminate].
    destruct (map_kres f l) as [bs|e] eqn:M; cbn [bind]; [|discriminate]. intro H; injection H as <-.
    cbn [forallb snd]. rewrite andb_true_iff, (IH bs eq_refl). split.
    + intros (T & H) k' v' [X|X]; [injection X as <- <-; eauto|eauto].
    + intro H. split; [destruct (H k v (or_introl eq_refl)) as (b' & F' & T); congruence|]. intros k' v' X. eapply H. right; eauto.
Qed.
Lemma collect_ok : forall A B (f : A -> result B) l, (forall k v, In (k, v) l -> exists b, f v = Ok b) -> exists r, map_kres f l = Ok r.
Proof.
  intros A B f. induction l as [|[k v] l IH]; intro H; cbn [map_kres]; [eauto|].
  destruct (H k v (or_introl eq_refl)) as (b & ->). destruct IH as (r & ->); [intros; eapply H; right; eauto|]. cbn [bind]. eauto.
Qed.
Lemma ostr_iff : forall a b, ostr_eqb a b = true <-> a = b.
Proof.
  intros [x|] [y|]; cbn [ostr_eqb]; split; intro H; try discriminate; try reflexivity.
  - apply String.eqb_eq in H. congruence.
  - injection H as ->. apply String.eqb_refl.
Qed.

Lemma all_configs : forall E l c cs, map_kres (node_config E) l = Ok cs ->
  (forallb (fun kc => ostr_eqb (snd kc) c) cs = true <-> forall k v, In (k, v) l -> node_config E v = Ok c).
Proof.
  intros E l c cs M. rewrite (collect _ _ _ (fun x => ostr_eqb x c) _ _ M). split.
  - intros H k v I. destruct (H k v I) as (b & F & T). apply ostr_iff in T. congruence.
  - intros H k v I. exists c. split; eauto. apply ostr_iff; reflexivity.
Qed.
Lemma all_spaces : forall E l s ss, map_kres (node_space E) l = Ok ss ->
  (forallb (fun ks => String.eqb (snd ks) s) ss = true <-> forall k v, In (k, v) l -> node_space E v = Ok s).
Proof.
  intros E l s ss M. rewrite (collect _ _ _ (fun x => String.eqb x s) _ _ M). split.
  - intros H k v I. destruct (H k v I) as (b & F & T). apply String.eqb_eq in T. congruence.
  - intros H k v I. exists s. split; eauto. apply String.eqb_refl.
Qed.

(** ** literal(dict) *)

(** A dict whose first value is a recipe becomes a literal exactly if all values have one config and one merge
    space; the config that is given must be theirs, the merge space that is given replaces theirs. *)
Theorem C125_recipes : forall E k first l cfg sp n, is_node first = true ->
  let d := (k, first) :: l in
  mk_literal E (VDict d) cfg sp = Ok n <->
  exists c s, (forall k v, In (k, v) d -> node_config E v = Ok c /\ node_space E v = Ok s) /\
    (cfg = None \/ cfg = c) /\ n = VLit (VDict d) c (match sp with Some s' => s' | None => s end).
Proof.
  intros E k first l cfg sp n N d. unfold mk_literal, d. rewrite N. fold d. split.
  - cbv zeta. intro H.
    destruct (match cfg with None => node_config E first | Some c => Ok (Some c) end) as [c|e] eqn:C; cbn [bind] in H; [|discriminate].
    destruct (node_space E first) as [s|e] eqn:S; cbn [bind] in H; [|discriminate].
    destruct (map_kres (node_config E) d) as [cs|e] eqn:M; cbn [bind] in H; [|discriminate].
    destruct (forallb _ cs) eqn:F; cbn [negb] in H; [|discriminate].
    destruct (map_kres (node_space E) d) as [ss|e] eqn:M2; cbn [bind] in H; [|discriminate].
    destruct (forallb _ ss) eqn:F2; cbn [negb] in H; [|discriminate].
    rewrite (all_configs _ _ _ _ M) in F. rewrite (all_spaces _ _ _ _ M2) in F2.
    exists c, s. split; [eauto|]. split; [|destruct sp; cbv beta zeta iota in H; congruence].
    destruct cfg; [right; congruence|auto].
  - intros (c & s & A & C & ->). destruct (A k first (or_introl eq_refl)) as (A1 & A2).
    assert (X : match cfg with None => node_config E first | Some c => Ok (Some c) end = Ok c)
      by (destruct C as [->|C]; [exact A1|destruct cfg; congruence]).
    rewrite X, A2. cbn [bind].
    destruct (collect_ok _ _ (node_config E) d) as (cs & M); [intros k' v' I; destruct (A k' v' I); eauto|].
    destruct (collect_ok _ _ (node_space E) d) as (ss & M2); [intros k' v' I; destruct (A k' v' I); eauto|].
    rewrite M. cbn [bind].
    assert (F : forallb (fun kc => ostr_eqb (snd kc) c) cs = true) by (apply (all_configs _ _ _ _ M); intros; apply (A k0 v); auto).
    rewrite F. cbn [negb]. rewrite M2. cbn [bind].
    assert (F2 : forallb (fun ks => String.eqb (snd ks) s) ss = true) by (apply (all_spaces _ _ _ _ M2); intros; apply (A k0 v); auto).
    rewrite F2. cbn [negb]. destruct sp; reflexivity.
Qed.
Print Assumptions C125_recipes.

(** Recipes that differ in config or in merge space raise ValueError. *)
Theorem C125_recipes_differ : forall E k first l cfg sp, is_node first = true ->
  let d := (k, first) :: l in
  (forall k v, In (k, v) d -> exists c s, node_config E v = Ok c /\ node_space E v = Ok s) ->
  (exists n, mk_literal E (VDict d) cfg sp = Ok n) \/ mk_literal E (VDict d) cfg sp = Err ValueError.
Proof.
  intros E k first l cfg sp N d A. unfold mk_literal, d. rewrite N. fold d.
  destruct (A k first (or_introl eq_refl)) as (c & s & A1 & A2). rewrite A1, A2.
  destruct (collect_ok _ _ (node_config E) d) as (cs & M); [intros k' v' I; destruct (A k' v' I) as (? & ? & ? & ?); eauto|].
  destruct (collect_ok _ _ (node_space E) d) as (ss & M2); [intros k' v' I; destruct (A k' v' I) as (? & ? & ? & ?); eauto|].
  destruct cfg; cbn [bind]; rewrite M; cbn [bind]; (destruct (forallb _ cs); cbn [negb]; [|auto]); rewrite M2; cbn [bind];
    (destruct (forallb _ ss); cbn [negb]; [left; eauto|auto]).
Qed.
Print Assumptions C125_recipes_differ.

(** A dict whose first value is no recipe is taken as it is. *)
Theorem C125_plain : forall E l cfg sp, (forall k v rest, l = (k, v) :: rest -> is_node v = false) ->
  mk_literal E (VDict l) cfg sp = Ok (VLit (VDict l) cfg (match sp with Some s => s | None => "param" end)).
Proof. intros E [|[k v] l] cfg sp H; cbn [mk_literal]; auto. rewrite (H k v l eq_refl). reflexivity. Qed.
Print Assumptions C125_plain.

(** ** a dict given to a merge method *)

(** It is accepted exactly if it is empty, or all its values are numbers, or strings, or None, or tensors, or
    recipes of one config and one merge space. *)
Theorem C125_input : forall E l t n, value_to_node E (VDict l) t = Ok n <->
  (n = VLit (VDict l) None "param" /\ (l = [] \/ exists K, K <> KRecipe /\ values (of_kind K) l /\ l <> [])) \/
  (l <> [] /\ exists c s, values (recipe_of E c s) l /\ n = VLit (VDict l) c s).
Proof.
  intros E l t n. destruct l as [|[k first] l].
  { cbn. split.
    - intro H; injection H as <-. auto.
    - intros [(-> & _)|(N & _)]; [reflexivity|congruence]. }
  set (d := (k, first) :: l). pose proof (kind_exists first) as KE.
  assert (V : value_to_node E (VDict d) t =
    match first with
    | VPath _ | VDict _ => Err TypeError
    | _ =>
      if negb (forallb (fun kv => same_kind first (snd kv)) d) then Err TypeError
      else if is_node first then
        let* _ := (let* c := node_config E first in
        let* cs := map_kres (node_config E) d in
        if negb (forallb (fun kc => ostr_eqb (snd kc) c) cs) then Err RuntimeError else
        let* s := node_space E first in
        let* ss := map_kres (node_space E) d in
        if negb (forallb (fun ks => String.eqb (snd ks) s) ss) then Err RuntimeError else Ok tt) in mk_literal E (VDict d) None None
      else mk_literal E (VDict d) None None
    end).
  { unfold value_to_node, d. destruct first; cbn [is_node]; try reflexivity; destruct (negb _); reflexivity. }
  rewrite V. clear V.
  assert (D : d <> []) by discriminate. assert (IF : In (k, first) d) by (left; reflexivity).
  assert (G : forall K, of_kind K first ->
    ((if negb (forallb (fun kv => same_kind first (snd kv)) d) then Err TypeError
      else if is_node first then
        let* _ := (let* c := node_config E first in
        let* cs := map_kres (node_config E) d in
        if negb (forallb (fun kc => ostr_eqb (snd kc) c) cs) then Err RuntimeError else
        let* s := node_space E first in
        let* ss := map_kres (node_space E) d in
        if negb (forallb (fun ks => String.eqb (snd ks) s) ss) then Err RuntimeError else Ok tt) in mk_literal E (VDict d) None None
      else mk_literal E (VDict d) None None) = Ok n <->
    (n = VLit (VDict d) None "param" /\ (d = [] \/ exists K, K <> KRecipe /\ values (of_kind K) d /\ d <> [])) \/
    (d <> [] /\ exists c s, values (recipe_of E c s) d /\ n = VLit (VDict d) c s))).
  2: { destruct first; try (destruct KE as (K & KE); exact (G K KE)).
       - split; [discriminate|]. intros [(_ & [X|(K & _ & X & _)])|(_ & c & s & X & _)]; [discriminate|specialize (X _ _ IF); inversion X|].
         destruct (X _ _ IF) as (Y & _). inversion Y.
       - split; [discriminate|]. intros [(_ & [X|(K & _ & X & _)])|(_ & c & s & X & _)]; [discriminate|specialize (X _ _ IF); inversion X|].
         destruct (X _ _ IF) as (Y & _). inversion Y. }
  intros K HK. pose proof (same_kinds K first d HK) as SK. destruct (is_node first) eqn:N.
  - assert (K = KRecipe) as -> by (apply node_kind in N; exact (kind_unique _ _ _ HK N)).
    pose proof (C125_recipes E k first l None None n N) as R. fold d in R. split.
    + destruct (forallb (fun kv => _) d); cbn [negb]; [|discriminate]. intro H. right. split; auto.
      match type of H with bind ?x _ = _ => destruct x; cbn [bind] in H; [|discriminate] end.
      apply R in H. destruct H as (c & s & A & _ & ->). exists c, s. split; auto. intros k' v' I.
      destruct (A k' v' I). repeat split; auto. exact (proj1 SK eq_refl k' v' I).
    + intros [(_ & [X|(K & NK & X & _)])|(_ & c & s & X & ->)]; [congruence| |].
      { exfalso. apply NK. exact (kind_unique _ _ _ (X _ _ IF) HK). }
      assert (F : forallb (fun kv => same_kind first (snd kv)) d = true) by (apply SK; intros k' v' I; apply (X k' v' I)).
      rewrite F. cbn [negb]. destruct (X _ _ IF) as (_ & C1 & C2). rewrite C1, C2. cbn [bind].
      destruct (collect_ok _ _ (node_config E) d) as (cs & M); [intros k' v' I; destruct (X k' v' I) as (? & ? & ?); eauto|].
      destruct (collect_ok _ _ (node_space E) d) as (ss & M2); [intros k' v' I; destruct (X k' v' I) as (? & ? & ?); eauto|].
      rewrite M. cbn [bind].
      assert (F1 : forallb (fun kc => ostr_eqb (snd kc) c) cs = true) by (apply (all_configs _ _ _ _ M); intros; apply (X k0 v); auto).
      rewrite F1. cbn [negb]. rewrite M2. cbn [bind].
      assert (F2 : forallb (fun ks => String.eqb (snd ks) s) ss = true) by (apply (all_spaces _ _ _ _ M2); intros; apply (X k0 v); auto).
      rewrite F2. cbn [negb bind]. apply R. exists c, s. split; [intros k' v' I; apply (X k' v' I)|]. auto.
  - assert (K <> KRecipe) by (intros ->; apply node_kind in HK; congruence).
    rewrite (C125_plain E d None None) by (intros k' v' rest I; injection I as <- <- <-; exact N). split.
    + destruct (forallb (fun kv => _) d); cbn [negb]; [|discriminate]. intro H'; injection H' as <-. left. split; auto. right. exists K.
      split; auto. split; auto. apply SK. reflexivity.
    + intros [(-> & [X|(K' & NK & X & _)])|(_ & c & s & X & _)]; [congruence| |].
      { assert (K' = K) as -> by exact (kind_unique _ _ _ (X _ _ IF) HK). rewrite (proj2 SK X). reflexivity. }
      exfalso. destruct (X _ _ IF) as (Y & _). apply node_kind in Y. congruence.
Qed.
Print Assumptions C125_input.

(** A path or a dict in first place, or a value of another kind than the first, raises TypeError. *)
Theorem C125_mixed : forall E k first l t, let d := (k, first) :: l in
  (forall K, of_kind K first -> ~ values (of_kind K) d) -> value_to_node E (VDict d) t = Err TypeError.
Proof.
  intros E k first l t d H.
  assert (F : forall K, of_kind K first -> forallb (fun kv => same_kind first (snd kv)) d = false).
  { intros K HK. destruct (forallb _ d) eqn:F; auto. exfalso. apply (same_kinds K first d HK) in F. exact (H K HK F). }
  pose proof (kind_exists first) as KE. unfold value_to_node. cbn [is_node]. unfold d in *.
  destruct first; try reflexivity; destruct KE as (K & KE); rewrite (F K KE); reflexivity.
Qed.
Print Assumptions C125_mixed.

(** Recipes that differ in config or in merge space raise RuntimeError here. *)
Theorem C125_input_differ : forall E k first l t, let d := (k, first) :: l in
  values (fun v => exists c s, recipe_of E c s v) d -> (forall c s, ~ values (recipe_of E c s) d) ->
  value_to_node E (VDict d) t = Err RuntimeError.
Proof.
  intros E k first l t d A N.
  assert (IF : In (k, first) d) by (left; reflexivity). destruct (A k first IF) as (c & s & KF & C1 & C2).
  assert (F : forallb (fun kv => same_kind first (snd kv)) d = true)
    by (apply (same_kinds KRecipe first d KF); intros k' v' I; destruct (A k' v' I) as (? & ? & Z & _); exact Z).
  destruct (collect_ok _ _ (node_config E) d) as (cs & M); [intros k' v' I; destruct (A k' v' I) as (? & ? & ? & ? & ?); eauto|].
  destruct (collect_ok _ _ (node_space E) d) as (ss & M2); [intros k' v' I; destruct (A k' v' I) as (? & ? & ? & ? & ?); eauto|].
  unfold value_to_node. cbn [is_node]. unfold d. fold d. rewrite F, M, M2, C1, C2. cbn [negb bind].
  replace (is_node first) with true by (symmetry; apply node_kind; exact KF).
  destruct (forallb (fun kc => ostr_eqb (snd kc) c) cs) eqn:F1; cbn [negb bind].
  - destruct (forallb (fun ks => String.eqb (snd ks) s) ss) eqn:F2; cbn [negb bind].
    + exfalso. apply (N c s). intros k' v' I. destruct (A k' v' I) as (_ & _ & Z & _).
      split; auto. split; [exact (proj1 (all_configs _ _ _ _ M) F1 k' v' I)|exact (proj1 (all_spaces _ _ _ _ M2) F2 k' v' I)].
    + destruct first; try (inversion KF); reflexivity.
  - destruct first; try (inversion KF); reflexivity.
Qed.
Print Assumptions C125_input_differ.

(** ** Examples, and where the claim fails *)
Definition E3 : env := Env [] ["sd1"; "sdxl"] ["weight"; "delta"; "param"].
Definition m1 : pyobj := VModel "a" (Some "sd1") "weight".
Definition m2 : pyobj := VModel "b" (Some "sd1") "weight".
Definition m3 : pyobj := VModel "c" (Some "sdxl") "weight".
Definition m4 : pyobj := VModel "d" (Some "sd1") "delta".
Definition m5 : pyobj := VModel "e" None "weight".

Example C125_examples :
  value_to_node E3 (VDict [("k", VInt 1); ("l", VFloat "0.5"); ("m", VBool true)]) false =
    Ok (VLit (VDict [("k", VInt 1); ("l", VFloat "0.5"); ("m", VBool true)]) None "param") /\
  value_to_node E3 (VDict [("k", m1); ("l", m2)]) false = Ok (VLit (VDict [("k", m1); ("l", m2)]) (Some "sd1") "weight") /\
  value_to_node E3 (VDict [("k", m5); ("l", m5)]) false = Ok (VLit (VDict [("k", m5); ("l", m5)]) None "weight") /\
  value_to_node E3 (VDict [("k", m1); ("l", m3)]) false = Err RuntimeError /\
  value_to_node E3 (VDict [("k", m1); ("l", m4)]) false = Err RuntimeError /\
  value_to_node E3 (VDict [("k", m1); ("l", VInt 1)]) false = Err TypeError /\
  value_to_node E3 (VDict [("k", VTensor 0); ("l", VNone)]) false = Err TypeError /\
  value_to_node E3 (VDict [("k", VDict [])]) true = Err TypeError /\
  h_literal E3 (VDict [("k", m1); ("l", m4)]) None None = Err ValueError /\
  h_literal E3 (VDict [("k", m1)]) None (Some "delta") = Ok (VLit (VDict [("k", m1)]) (Some "sd1") "delta") /\
  h_literal E3 (VDict [("k", m1)]) (Some "sdxl") None = Err ValueError /\
  h_literal E3 (VDict [("k", m5)]) (Some "sd1") None = Err ValueError.
Proof. repeat split. Qed.

(** What a merge method refuses, literal accepts: mixed values are not looked at, and the literal is then taken. *)
Theorem C125_literal_unchecked_refuted : exists v n, h_literal E3 v None None = Ok n /\
  value_to_node E3 v true = Err TypeError /\ value_to_node E3 n true = Ok n.
Proof. exists (VDict [("k", VInt 1); ("l", VStr "x"); ("m", m1)]). eexists. repeat split. Qed.
Print Assumptions C125_literal_unchecked_refuted.

(** The same mistake raises ValueError in literal and RuntimeError in a call. *)
Theorem C125_same_error_refuted : exists v, h_literal E3 v None None = Err ValueError /\ value_to_node E3 v true = Err RuntimeError.
Proof. exists (VDict [("k", m1); ("l", m3)]). repeat split. Qed.
Print Assumptions C125_same_error_refuted.

(** ** a dict given to merge *)

(** It is accepted like one given to a merge method, except that it may not be empty; a state dict of tensors is
    then a recipe in merge space "param". *)
Theorem C125_merge : forall E l n, merge_recipe E (VDict l) VNone = Ok n <->
  l <> [] /\ ((n = VLit (VDict l) None "param" /\ exists K, K <> KRecipe /\ values (of_kind K) l) \/
              (exists c s, values (recipe_of E c s) l /\ n = VLit (VDict l) c s)).
Proof.
  intros E l n. destruct l as [|kv l].
  - split; [discriminate|]. intros (N & _). congruence.
  - assert (Q : merge_recipe E (VDict (kv :: l)) VNone = Ok n <-> value_to_node E (VDict (kv :: l)) false = Ok n).
    { unfold merge_recipe. change (ModelOps.operand E (VDict (kv :: l))) with (value_to_node E (VDict (kv :: l)) false).
      destruct (value_to_node E (VDict (kv :: l)) false); cbn [bind]; tauto. }
    rewrite Q, C125_input. split.
    + intros [(-> & [X|(K & A & B & C)])|(N & c & s & A & B)]; [discriminate| |]; split; try discriminate; [left|right]; eauto 6.
    + intros (N & [(-> & K & A & B)|(c & s & A & B)]); [left|right]; eauto 8.
Qed.
Print Assumptions C125_merge.
(** so that a strict merge, the default, always raises on one, whatever the other options are; without strict it
    may go on *)
Theorem C125_merge_strict_refuted :
  (forall T same to (o : ModelMerge.options T) r cfg files cpus, ModelMerge.mo_strict o = true ->
     exists e, ModelMerge.plan same to o r cfg "param" files cpus = Err e) /\
  merge_recipe E3 (VDict [("k", VTensor 0)]) VNone = Ok (VLit (VDict [("k", VTensor 0)]) None "param").
Proof.
  split; [|reflexivity]. intros T same to o r cfg files cpus S. unfold ModelMerge.plan.
  destruct (ModelMerge.with_fallback o r cfg "param") as [r1|e]; cbn [bind]; [|eauto].
  destruct (ModelMerge.with_merge_dtype to o r1) as [r2|e]; cbn [bind]; [|eauto].
  destruct (ModelMerge.thread_count _ _ _) as [n|e]; cbn [bind]; [|eauto].
  rewrite S. cbn. eauto.
Qed.
Print Assumptions C125_merge_strict_refuted.
Example C125_merge_applies :
  merge_recipe E3 (VDict [("k", VTensor 0); ("l", VTensor 1)]) VNone = Ok (VLit (VDict [("k", VTensor 0); ("l", VTensor 1)]) None "param") /\
  merge_recipe E3 (VDict [("k", m1)]) VNone = Ok (VLit (VDict [("k", m1)]) (Some "sd1") "weight") /\
  merge_recipe E3 (VDict []) VNone = Err StopIteration /\
  merge_recipe E3 (VDict [("k", VTensor 0); ("l", m1)]) VNone = Err TypeError.
Proof. repeat split. Qed.
