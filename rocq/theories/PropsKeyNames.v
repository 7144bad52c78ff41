(** C40, C41: each key is read from the parameter of the same module. *)
From Coq Require Import String Ascii List Bool Arith NArith Lia.
From Verif Require Import Base PyStr Dec ModelKeys ModelKeyConv SpecKeys SpecKeyNames KeysProofs PropsKeys PropsKeysXl.
Import ListNotations.
Open Scope string_scope.
Open Scope list_scope.
Open Scope nat_scope.

(** all the names a table gives to a key *)
Definition candidates (modules : list (string * string)) (k : string) : list string :=
  flat_map (fun m => if prefixed (fst m) k then [(snd m ++ after (fst m) k)%string] else []) modules.

Lemma candidates_spec : forall modules k s, corresponds modules k s -> In s (candidates modules k).
Proof.
  intros modules k s (p & q & r & Hin & -> & ->). unfold candidates. apply in_flat_map.
  exists (p, q); split; auto. cbn [fst snd]. rewrite prefixed_append, after_append. left; reflexivity.
Qed.
Lemma prefixed_after : forall p k, prefixed p k = true -> k = (p ++ after p k)%string.
Proof.
  intros p k P. unfold prefixed in P. apply starts_with_spec in P as (r & E).
  unfold after. rewrite E, skipn_app, skipn_all, Nat.sub_diag; cbn [skipn app].
  rewrite <- (l2s_s2l k), E. unfold l2s, s2l.
  rewrite <- (string_of_list_ascii_of_string p) at 2. clear.
  induction (list_ascii_of_string p) as [|c l IH]; simpl; [reflexivity|congruence].
Qed.
Lemma candidates_sound : forall modules k s, In s (candidates modules k) -> corresponds modules k s.
Proof.
  intros modules k s H. unfold candidates in H. apply in_flat_map in H as ((p & q) & Hin & H). cbn [fst snd] in H.
  destruct (prefixed p k) eqn:P; [|destruct H]. destruct H as [<-|[]].
  exists p, q, (after p k); repeat split; auto. apply prefixed_after; auto.
Qed.

(** the table has one name for the key, [s] *)
Definition named_b (modules : list (string * string)) (k s : string) : bool :=
  match candidates modules k with [s'] => String.eqb s s' | _ => false end.
Lemma named_spec : forall modules k s, named_b modules k s = true ->
  corresponds modules k s /\ forall s', corresponds modules k s' -> s' = s.
Proof.
  intros modules k s H. unfold named_b in H.
  destruct (candidates modules k) as [|c [|]] eqn:C; try discriminate. apply String.eqb_eq in H; subst c.
  split; [apply candidates_sound; rewrite C; left; reflexivity|].
  intros s' Hs'. apply candidates_spec in Hs'. rewrite C in Hs'. destruct Hs' as [<-|[]]; reflexivity.
Qed.


(** ** Stable Diffusion 1 *)
Lemma sd1_names_ok : forallb (fun k => named_b sd1_modules k (fst (sd1_source k))) (selection any vae_attention_norms sd1_ldm) = true.
Proof. vm_cast_no_check (eq_refl true). Qed.

Theorem C40_sd1_names : forall k, required sd1_ldm k -> ~ In k vae_attention_norms ->
  exists s, name_of sd1_modules k s /\ In s (keys sd1_kohya) /\
    forall A (sd : state_dict A), follows sd1_kohya sd ->
      exists t t', sd s = Ok t /\ convert_sd1_kohya sd k = Ok t' /\
        same_entries t t' /\ declared_shape sd1_ldm k (t_shape t').
Proof.
  intros k R N. exists (fst (sd1_source k)).
  destruct (keys_map _ _ _ _ _ _ sd1_map_ok R eq_refl N) as (D & H).
  pose proof sd1_names_ok as O. apply (proj1 (forallb_forall _ _)) with (x := k) in O;
    [|apply selection_In; repeat split; auto].
  apply named_spec in O. split; [exact O|]. split; [exact D|].
  intros A sd Fo. destruct (H A sd Fo) as (t & Ht & Sh).
  rewrite sd1_conv, Ht; cbn [bind]. exists t; eexists; repeat split; eauto.
  destruct (snd (sd1_source k)); [apply same_entries_reshape|apply same_entries_refl].
Qed.

Definition declared_name (c : yaml_config) (modules : list (string * string)) (k : string) : bool :=
  match candidates modules k with [s] => existsb (String.eqb s) (keys c) | _ => false end.
Lemma declared_name_spec : forall c modules k, declared_name c modules k = true ->
  exists s, name_of modules k s /\ In s (keys c).
Proof.
  intros c modules k H. unfold declared_name in H.
  destruct (candidates modules k) as [|s [|]] eqn:C; try discriminate.
  exists s; split; [|apply existsb_In; auto].
  apply named_spec. unfold named_b; rewrite C. apply String.eqb_refl.
Qed.
Lemma sd1_norm_names : forallb (declared_name sd1_kohya sd1_modules) vae_attention_norms = true.
Proof. vm_cast_no_check (eq_refl true). Qed.

(** The four normalisations raise although the layout has them under their
    name. *)
Theorem C40_sd1_names_refuted : forall k, In k vae_attention_norms ->
  exists s, name_of sd1_modules k s /\ In s (keys sd1_kohya) /\
    forall A (sd : state_dict A), follows sd1_kohya sd ->
      is_ok (sd s) = true /\ exists s', s' <> s /\ convert_sd1_kohya sd k = Err (StateDictKeyError s').
Proof.
  intros k Hk. pose proof sd1_norm_names as O. apply (proj1 (forallb_forall _ _)) with (x := k) in O; auto.
  destruct (declared_name_spec _ _ _ O) as (s & N & D). exists s; split; [exact N|split; [exact D|]].
  intros A sd Fo. split.
  - unfold keys in D. apply in_map_iff in D as (e & <- & He). destruct (proj1 Fo e He) as (t & -> & _). reflexivity.
  - destruct (C40_sd1_kohya_refuted k Hk) as (_ & _ & H). destruct (H A sd Fo) as (s' & Ns & E).
    exists s'; split; auto. intros ->; auto.
Qed.

(** ** Stable Diffusion XL *)
Lemma xl_names_ok : forallb (fun k => named_b sdxl_unet_modules k (fst (xl_source k))) (selection xl_scope [] sdxl_sgm) = true.
Proof. vm_cast_no_check (eq_refl true). Qed.
Theorem C41_sdxl_names : forall k, required sdxl_sgm k -> prefixed "model.diffusion_model." k = true -> out2_group k = false ->
  exists s, name_of sdxl_unet_modules k s /\ In s (keys sdxl_diffusers) /\
    forall A (sd : state_dict A), follows sdxl_diffusers sd ->
      exists t, sd s = Ok t /\ convert_sdxl_diffusers sd k = Ok t /\ declared_shape sdxl_sgm k (t_shape t).
Proof.
  intros k R P G. exists (fst (xl_source k)).
  assert (S : xl_scope k = true) by (unfold xl_scope; rewrite P, G; reflexivity).
  destruct (keys_map _ _ _ _ _ _ xl_map_ok R S (fun F => F)) as (D & H).
  pose proof xl_names_ok as O. apply (proj1 (forallb_forall _ _)) with (x := k) in O;
    [|apply selection_In; repeat split; auto].
  apply named_spec in O. split; [exact O|]. split; [exact D|].
  intros A sd Fo. destruct (H A sd Fo) as (t & Ht & Sh). exists t; split; [exact Ht|]. split; [|exact Sh].
  unfold convert_sdxl_diffusers. rewrite (xl_prefixed k (required_key _ _ R)), P. exact Ht.
Qed.

Lemma xl_out2_names : forallb (fun k => negb (out2_group k) || declared_name sdxl_diffusers sdxl_unet_modules k) (keys sdxl_sgm) = true.
Proof. vm_cast_no_check (eq_refl true). Qed.
(** The two groups raise although the layout has each of their keys under its
    name. *)
Theorem C41_sdxl_names_refuted : forall k, In k (keys sdxl_sgm) -> out2_group k = true ->
  exists s, name_of sdxl_unet_modules k s /\ In s (keys sdxl_diffusers) /\
    forall A (sd : state_dict A), follows sdxl_diffusers sd ->
      is_ok (sd s) = true /\ exists s', s' <> s /\ convert_sdxl_diffusers sd k = Err (StateDictKeyError s').
Proof.
  intros k Hk G. pose proof xl_out2_names as O. apply (proj1 (forallb_forall _ _)) with (x := k) in O; auto.
  cbv beta in O. rewrite G in O; cbn [negb orb] in O.
  destruct (declared_name_spec _ _ _ O) as (s & N & D). exists s; split; [exact N|split; [exact D|]].
  intros A sd Fo. split.
  - unfold keys in D. apply in_map_iff in D as (e & <- & He). destruct (proj1 Fo e He) as (t & -> & _). reflexivity.
  - destruct C41_sdxl_diffusers_refuted as (_ & _ & _ & _ & H). destruct (H k Hk G A sd Fo) as (s' & Ns & E).
    exists s'; split; auto. intros ->; auto.
Qed.

(** the second text encoder, apart from its projection and the stacked weights *)
Lemma te2_names_ok : forallb (fun k => negb (te2_plain k) || named_b sdxl_clip_g_modules k (sdxl_clip_g_key k)) (keys sdxl_sgm) = true.
Proof. vm_cast_no_check (eq_refl true). Qed.
Theorem C41_te2_names : forall k, In k (keys sdxl_sgm) -> te2_plain k = true ->
  exists s, name_of sdxl_clip_g_modules k s /\ In s (keys sdxl_kohya) /\
    forall A (sd : state_dict A), follows sdxl_kohya sd ->
      exists t, sd s = Ok t /\ convert_sdxl_kohya sd k = Ok t /\ declared_shape sdxl_sgm k (t_shape t).
Proof.
  intros k Hk P. pose proof te2_names_ok as O. apply (proj1 (forallb_forall _ _)) with (x := k) in O; auto.
  cbv beta in O. rewrite P in O; cbn [negb orb] in O.
  apply In_keys in Hk as (e & He & E).
  pose proof (checked _ _ _ sdxl_te2_plain He) as C. unfold te2_entry_by in C. rewrite E, P in C.
  cbn [negb orb] in C. apply andb_prop in C as (C & C4). apply andb_prop in C as (C & C3).
  apply andb_prop in C as (C1 & C2). apply negb_true_iff in C1. apply negb_true_iff in C2. apply negb_true_iff in C3.
  destruct (find_entry sdxl_kohya (sdxl_clip_g_key k)) as [f|] eqn:F; [|discriminate].
  apply shape_eqb_eq in C4.
  unfold te2_plain in P. apply andb_prop in P as (P & _). apply andb_prop in P as (P & P3).
  apply andb_prop in P as (P1 & P2). apply negb_true_iff in P3.
  exists (sdxl_clip_g_key k). split; [apply named_spec; exact O|]. split.
  - apply find_entry_Some in F as (Hf & Ef). rewrite <- Ef. apply in_map; auto.
  - intros A sd Fo. destruct (follows_find _ _ _ _ _ Fo F) as (t & Ht & Sh). exists t. split; [exact Ht|split].
    + unfold convert_sdxl_kohya. rewrite C1, C2, P1. unfold convert_sdxl_clip_g.
      unfold stacked in C3. rewrite C3, P3, Ht. reflexivity.
    + exists e; repeat split; auto; congruence.
Qed.

(** some names the tables give *)
Example C40_names_case :
  corresponds sd1_modules "first_stage_model.decoder.mid.attn_1.q.weight" "vae.decoder.mid_block.attentions.0.to_q.weight" /\
  corresponds sd1_modules "model.diffusion_model.output_blocks.8.2.conv.bias" "unet.up_blocks.2.upsamplers.0.conv.bias" /\
  corresponds sd1_modules "first_stage_model.decoder.up.3.block.1.norm1.bias" "vae.decoder.up_blocks.0.resnets.1.norm1.bias".
Proof. repeat split; apply candidates_sound; vm_compute; left; reflexivity. Qed.
Example C41_names_case :
  corresponds sdxl_unet_modules "model.diffusion_model.input_blocks.4.0.in_layers.2.weight" "down_blocks.1.resnets.0.conv1.weight" /\
  corresponds sdxl_unet_modules "model.diffusion_model.output_blocks.2.2.conv.weight" "up_blocks.0.upsamplers.0.conv.weight" /\
  corresponds sdxl_clip_g_modules "conditioner.embedders.1.model.transformer.resblocks.17.ln_2.weight"
    "te2.text_model.encoder.layers.17.layer_norm2.weight".
Proof. repeat split; apply candidates_sound; vm_compute; left; reflexivity. Qed.

Print Assumptions C40_sd1_names.
Print Assumptions C40_sd1_names_refuted.
Print Assumptions C41_sdxl_names.
Print Assumptions C41_sdxl_names_refuted.
Print Assumptions C41_te2_names.
