(** C40, C41: the conversions between builtin layouts, checked on every key of
    the builtin configs and for every state dict. *)
From Coq Require Import String Ascii List Bool Arith NArith Lia.
From Verif Require Import Base PyStr Dec ModelKeys ModelKeyConv SpecKeys KeysProofs.
From Verif Require DataSd1Ldm DataSd1Kohya.
Import ListNotations.
Open Scope string_scope.
Open Scope list_scope.
Open Scope nat_scope.

Notation sd1_ldm := DataSd1Ldm.config.
Notation sd1_kohya := DataSd1Kohya.config.

(* keep conversion away from the tables and the data *)
Opaque sd1_map_layer unet_map vae_source unet_source DataSd1Ldm.config DataSd1Kohya.config.

Lemma sd1_kohya_nodup : nodupb (keys sd1_kohya) = true.
Proof. vm_cast_no_check (eq_refl true). Qed.

Definition sd1_source (k : string) : string * bool :=
  if prefixed "model.diffusion_model." k then (cat ["unet."; unet_source sd1_map_layer unet_map k], false)
  else if prefixed "cond_stage_model." k then
    (cat ["te."; l2s (py_join (s2l ".") (skipn 2 (py_split "." (s2l k))))], false)
  else if prefixed "first_stage_model." k then vae_source k
  else (k, false).

Lemma sd1_conv : forall A (sd : state_dict A) k,
  convert_sd1_kohya sd k =
  let* t := sd (fst (sd1_source k)) in Ok (if snd (sd1_source k) then reshape_for_sd t else t).
Proof.
  intros A sd k; unfold convert_sd1_kohya, sd1_source.
  destruct (prefixed "model.diffusion_model." k).
  { unfold sd1_convert_unet; cbn [fst snd]. apply bind_ret. }
  destruct (prefixed "cond_stage_model." k).
  { unfold sd1_convert_clip_l; cbn [fst snd]. apply bind_ret. }
  destruct (prefixed "first_stage_model." k).
  - unfold convert_vae. destruct (vae_source k) as [s r]. reflexivity.
  - cbn [fst snd]. apply bind_ret.
Qed.

(** the keys of the two attention normalisations of the autoencoder *)
Definition vae_attention_norms : list string :=
  ["first_stage_model.decoder.mid.attn_1.norm.bias"; "first_stage_model.decoder.mid.attn_1.norm.weight";
   "first_stage_model.encoder.mid.attn_1.norm.bias"; "first_stage_model.encoder.mid.attn_1.norm.weight"].
Definition kohya_attention_norms : list string :=
  ["vae.decoder.mid_block.attentions.0.group_norm.bias"; "vae.decoder.mid_block.attentions.0.group_norm.weight";
   "vae.encoder.mid_block.attentions.0.group_norm.bias"; "vae.encoder.mid_block.attentions.0.group_norm.weight"].

Definition any (_ : string) : bool := true.
Lemma sd1_map_ok : all_map sd1_kohya sd1_source any vae_attention_norms sd1_ldm = true.
Proof. vm_cast_no_check (eq_refl true). Qed.
Lemma sd1_distinct : nodupb (map (fun k => fst (sd1_source k)) (selection any vae_attention_norms sd1_ldm)) = true.
Proof. vm_cast_no_check (eq_refl true). Qed.
Lemma sd1_used : all_used kohya_attention_norms
  (map (fun k => fst (sd1_source k)) (selection any vae_attention_norms sd1_ldm)) (keys sd1_kohya) = true.
Proof. vm_cast_no_check (eq_refl true). Qed.
Lemma sd1_missing : all_missing sd1_kohya (fun k => fst (sd1_source k))
  (fun e => ke_optional e || existsb (String.eqb (ke_key e)) vae_attention_norms) sd1_ldm = true.
Proof. vm_cast_no_check (eq_refl true). Qed.

(** Every key a full sd1-ldm model must have, except the four normalisation
    parameters of the autoencoder's attention, is read from one key the kohya
    layout declares; the result holds that tensor's entries in the declared
    shape.  Different keys read different sources, and together they read every
    kohya key but the four counterparts. *)
Theorem C40_sd1_kohya_partial :
  exists source : string -> string,
    (forall k, required sd1_ldm k -> ~ In k vae_attention_norms ->
       In (source k) (keys sd1_kohya) /\
       forall A (sd : state_dict A), follows sd1_kohya sd ->
         exists t t', sd (source k) = Ok t /\ convert_sd1_kohya sd k = Ok t' /\
           same_entries t t' /\ declared_shape sd1_ldm k (t_shape t')) /\
    (forall k k', required sd1_ldm k -> ~ In k vae_attention_norms ->
       required sd1_ldm k' -> ~ In k' vae_attention_norms -> source k = source k' -> k = k') /\
    (forall s, In s (keys sd1_kohya) -> ~ In s kohya_attention_norms ->
       exists k, required sd1_ldm k /\ ~ In k vae_attention_norms /\ source k = s).
Proof.
  exists (fun k => fst (sd1_source k)); split; [|split].
  - intros k R N. destruct (keys_map _ _ _ _ _ _ sd1_map_ok R eq_refl N) as (D & H).
    split; auto. intros A sd Fo. destruct (H A sd Fo) as (t & Ht & Sh).
    rewrite sd1_conv, Ht; cbn [bind]. exists t; eexists; repeat split; eauto.
    destruct (snd (sd1_source k)); [apply same_entries_reshape|apply same_entries_refl].
  - intros k k' R N R' N' E. apply (sources_distinct _ _ _ _ _ _ sd1_distinct); auto.
  - intros s Hs N. destruct (sources_all _ _ _ _ _ _ _ sd1_used Hs N) as (k & R & _ & Nk & E).
    exists k; auto.
Qed.

(** The four remaining keys fail although the kohya layout has their tensors
    (in the same shape, under the name that ends in [group_norm]). *)
Theorem C40_sd1_kohya_refuted : forall k, In k vae_attention_norms ->
  required sd1_ldm k /\
  (exists s sh, In s kohya_attention_norms /\ declared_shape sd1_kohya s sh /\ declared_shape sd1_ldm k sh) /\
  forall A (sd : state_dict A), follows sd1_kohya sd ->
    exists s, ~ In s (keys sd1_kohya) /\ convert_sd1_kohya sd k = Err (StateDictKeyError s).
Proof.
  assert (R : forallb (fun k => has_entry sd1_ldm k [512%N] false) vae_attention_norms = true)
    by (vm_cast_no_check (eq_refl true)).
  assert (D : has_entry sd1_kohya "vae.decoder.mid_block.attentions.0.group_norm.bias" [512%N] false = true)
    by (vm_cast_no_check (eq_refl true)).
  intros k Hk. apply (proj1 (forallb_forall _ _)) with (x := k) in R; auto.
  pose proof (has_entry_required _ _ _ R) as Rq. apply has_entry_shape in R. apply has_entry_shape in D.
  split; [auto|split].
  - exists "vae.decoder.mid_block.attentions.0.group_norm.bias", [512%N].
    split; [left; reflexivity|split; auto].
  - intros A sd Fo. destruct Rq as (e & He & E & O). subst k.
    destruct (keys_missing _ _ _ _ e sd1_missing He) as (M & H).
    { apply orb_true_intro; right. apply existsb_In; auto. }
    exists (fst (sd1_source (ke_key e))); split; auto.
    rewrite sd1_conv, (H A sd Fo); reflexivity.
Qed.

(** Optional keys the kohya layout has no room for raise, so merging skips them. *)
Theorem C40_optional_keys_raise : forall e, In e (entries sd1_ldm) -> ke_optional e = true ->
  forall A (sd : state_dict A), follows sd1_kohya sd ->
    exists s, convert_sd1_kohya sd (ke_key e) = Err (StateDictKeyError s).
Proof.
  intros e He O A sd Fo.
  destruct (keys_missing _ _ _ _ e sd1_missing He) as (M & H); [rewrite O; reflexivity|].
  exists (fst (sd1_source (ke_key e))). rewrite sd1_conv, (H A sd Fo); reflexivity.
Qed.

Example C40_applies : follows sd1_kohya (zeros sd1_kohya) /\
  is_ok (convert_sd1_kohya (zeros sd1_kohya) "first_stage_model.decoder.mid.attn_1.k.weight") = true.
Proof. split; [apply zeros_follows, sd1_kohya_nodup | vm_cast_no_check (eq_refl true)]. Qed.
Example C40_required : required sd1_ldm "model.diffusion_model.input_blocks.4.1.proj_in.weight" /\
  ~ In "model.diffusion_model.input_blocks.4.1.proj_in.weight" vae_attention_norms.
Proof.
  split.
  - apply has_entry_required with (sh := [640; 640; 1; 1]%N). vm_cast_no_check (eq_refl true).
  - simpl; intuition discriminate.
Qed.
Print Assumptions C40_sd1_kohya_partial.
Print Assumptions C40_sd1_kohya_refuted.
Print Assumptions C40_optional_keys_raise.
