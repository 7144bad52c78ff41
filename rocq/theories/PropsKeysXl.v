(** C41: the sdxl conversions, on every key and for every state dict. *)
From Coq Require Import String Ascii List Bool Arith NArith Lia.
From Verif Require Import Base PyStr Dec ModelKeys ModelKeyConv SpecKeys KeysProofs.
From Verif Require DataSdxlSgm DataSdxlKohya DataSdxlDiffusers.
Import ListNotations.
Open Scope string_scope.
Open Scope list_scope.
Open Scope nat_scope.

Notation sdxl_sgm := DataSdxlSgm.config.
Notation sdxl_kohya := DataSdxlKohya.config.
Notation sdxl_diffusers := DataSdxlDiffusers.config.

(* keep conversion away from the tables and the data *)
Opaque sdxl_map_layer sdxl_unet_map vae_source unet_source prefixed suffixed krep
  DataSdxlSgm.config DataSdxlKohya.config DataSdxlDiffusers.config.

Lemma sdxl_kohya_nodup : nodupb (keys sdxl_kohya) = true.
Proof. vm_cast_no_check (eq_refl true). Qed.
Lemma sdxl_diffusers_nodup : nodupb (keys sdxl_diffusers) = true.
Proof. vm_cast_no_check (eq_refl true). Qed.

Lemma checked : forall c (chk : key_entry -> bool) e,
  forallb chk (entries c) = true -> In e (entries c) -> chk e = true.
Proof. intros c chk e H He. apply (proj1 (forallb_forall _ _) H e He). Qed.
Lemma In_keys : forall c k, In k (keys c) -> exists e, In e (entries c) /\ ke_key e = k.
Proof. intros c k H. apply in_map_iff in H as (e & E & H); eauto. Qed.

(** ** Stacking three matrices or three vectors *)
Lemma vstack_matrices : forall A (q k v : tensor A) r c,
  t_shape q = [r; c] -> t_shape k = [r; c] -> t_shape v = [r; c] ->
  exists t, vstack [q; k; v] = Ok t /\ t_shape t = [(3 * r)%N; c] /\
    forall i j, (i < r)%N ->
      t_at t [i; j] = t_at q [i; j] /\ t_at t [(r + i)%N; j] = t_at k [i; j] /\
      t_at t [(2 * r + i)%N; j] = t_at v [i; j].
Proof.
  intros A q k v r c Hq Hk Hv. unfold vstack, vstack_go.
  assert (Eq : atleast_2d q = q) by (unfold atleast_2d; rewrite Hq; auto).
  assert (Ek : atleast_2d k = k) by (unfold atleast_2d; rewrite Hk; auto).
  assert (Ev : atleast_2d v = v) by (unfold atleast_2d; rewrite Hv; auto).
  rewrite Eq, Ek, Ev. unfold cat_rows at 1. rewrite Hq, Hk. cbn [tl].
  destruct (list_eq_dec N.eq_dec [c] [c]) as [_|F]; [|congruence]. cbn [bind].
  unfold cat_rows. cbn [t_shape tl]. rewrite Hv; cbn [tl].
  destruct (list_eq_dec N.eq_dec [c] [c]) as [_|F]; [|congruence]. cbn [bind].
  eexists; split; [reflexivity|]. unfold rows. rewrite Hq, Hk, Hv. cbn [t_shape t_at hd tl]. split.
  - f_equal. lia.
  - intros i j Hi. repeat split.
    + destruct (N.ltb_spec i (r + r)); [|lia]. destruct (N.ltb_spec i r); [auto|lia].
    + destruct (N.ltb_spec (r + i) (r + r)); [|lia]. destruct (N.ltb_spec (r + i) r); [lia|].
      replace (r + i - r)%N with i by lia; auto.
    + destruct (N.ltb_spec (2 * r + i) (r + r)); [lia|].
      replace (2 * r + i - (r + r))%N with i by lia; auto.
Qed.

Lemma vstack_vectors : forall A (q k v : tensor A) n,
  t_shape q = [n] -> t_shape k = [n] -> t_shape v = [n] ->
  exists t, vstack [q; k; v] = Ok t /\ t_shape t = [3%N; n].
Proof.
  intros A q k v n Hq Hk Hv. unfold vstack, vstack_go.
  assert (Sq : t_shape (atleast_2d q) = [1%N; n]) by (unfold atleast_2d; rewrite Hq; auto).
  assert (Sk : t_shape (atleast_2d k) = [1%N; n]) by (unfold atleast_2d; rewrite Hk; auto).
  assert (Sv : t_shape (atleast_2d v) = [1%N; n]) by (unfold atleast_2d; rewrite Hv; auto).
  unfold cat_rows at 1. rewrite Sq, Sk. cbn [tl].
  destruct (list_eq_dec N.eq_dec [n] [n]) as [_|F]; [|congruence]. cbn [bind].
  unfold cat_rows. cbn [t_shape tl]. rewrite Sv; cbn [tl].
  destruct (list_eq_dec N.eq_dec [n] [n]) as [_|F]; [|congruence]. cbn [bind].
  eexists; split; [reflexivity|]. unfold rows. rewrite Sq, Sk, Sv. reflexivity.
Qed.

(** ** kohya *)

(** the part of a key after a prefix *)
Definition after (p k : string) : string := l2s (skipn (length (s2l p)) (s2l k)).
Lemma after_append : forall p x, after p (p ++ x)%string = x.
Proof.
  intros p x; unfold after. assert (E : s2l (p ++ x)%string = s2l p ++ s2l x).
  { induction p; simpl; [reflexivity|]. unfold s2l in *; simpl. rewrite IHp; auto. }
  rewrite E, skipn_app, skipn_all, Nat.sub_diag; simpl. apply l2s_s2l.
Qed.
Lemma prefixed_append : forall p x, prefixed p (p ++ x)%string = true.
Proof.
  intros p x. Transparent prefixed. unfold prefixed. Opaque prefixed.
  apply starts_with_spec. exists (s2l x).
  induction p; simpl; [reflexivity|]. unfold s2l in *; simpl. rewrite IHp; auto.
Qed.

(** the searches below go through an index of the kohya entries *)
Lemma forallb_eq : forall A (f g : A -> bool) l, (forall x, f x = g x) -> forallb f l = forallb g l.
Proof. induction l; simpl; intros H; auto. rewrite H, IHl; auto. Qed.

(** keys under [p] are read from the same name under [p'], unchanged *)
Definition renamed_by (find : string -> option key_entry) (p p' : string) (read : string -> string) (e : key_entry) : bool :=
  negb (prefixed p (ke_key e)) ||
  (String.eqb (read (ke_key e)) (p' ++ after p (ke_key e))%string &&
   match find (p' ++ after p (ke_key e))%string with
   | Some f => shape_eqb (ke_shape f) (ke_shape e) | None => false end).
Notation renamed := (renamed_by (find_entry sdxl_kohya)).
Lemma renamed_eq : forall f g p p' read e, (forall k, f k = g k) -> renamed_by f p p' read e = renamed_by g p p' read e.
Proof. intros f g p p' read e H; unfold renamed_by. rewrite H; auto. Qed.
Lemma kohya_index : forall k, find_entry sdxl_kohya k = lookup (entry_index sdxl_kohya) k.
Proof. intros k. symmetry. apply entry_index_find. Qed.
Lemma sdxl_unet_renamed :
  forallb (fun e => renamed "model.diffusion_model." "unet." (krep "model.diffusion_model." "unet.") e) (entries sdxl_sgm) = true.
Proof.
  assert (H : (let ix := entry_index sdxl_kohya in
    forallb (fun e => renamed_by (lookup ix) "model.diffusion_model." "unet." (krep "model.diffusion_model." "unet.") e) (entries sdxl_sgm)) = true)
    by (vm_cast_no_check (eq_refl true)).
  cbv zeta in H. etransitivity; [apply forallb_eq|exact H]. intros e. apply renamed_eq, kohya_index.
Qed.
Definition te1_entry_by (find : string -> option key_entry) (e : key_entry) : bool :=
  renamed_by find "conditioner.embedders.0.transformer." "te1." (krep "conditioner.embedders.0.transformer." "te1.") e
  && (negb (prefixed "conditioner.embedders.0.transformer." (ke_key e)) ||
      (negb (prefixed "model.diffusion_model." (ke_key e)) && prefixed "conditioner.embedders.0." (ke_key e))).
Lemma te1_entry_eq : forall f g e, (forall k, f k = g k) -> te1_entry_by f e = te1_entry_by g e.
Proof. intros f g e H; unfold te1_entry_by. rewrite (renamed_eq f g); auto. Qed.
Notation te1_entry := (te1_entry_by (find_entry sdxl_kohya)).
Lemma sdxl_te1_renamed : forallb te1_entry (entries sdxl_sgm) = true.
Proof.
  assert (H : (let ix := entry_index sdxl_kohya in forallb (te1_entry_by (lookup ix)) (entries sdxl_sgm)) = true)
    by (vm_cast_no_check (eq_refl true)).
  cbv zeta in H. etransitivity; [apply forallb_eq|exact H]. intros e. apply te1_entry_eq, kohya_index.
Qed.

Lemma renamed_spec : forall p p' read x,
  forallb (renamed p p' read) (entries sdxl_sgm) = true ->
  In (p ++ x)%string (keys sdxl_sgm) ->
  read (p ++ x)%string = (p' ++ x)%string /\
  forall A (sd : state_dict A), follows sdxl_kohya sd ->
    exists t, sd (p' ++ x)%string = Ok t /\ declared_shape sdxl_sgm (p ++ x)%string (t_shape t).
Proof.
  intros p p' read x H Hk. apply In_keys in Hk as (e & He & E).
  pose proof (checked _ _ _ H He) as C. unfold renamed_by in C. rewrite E, prefixed_append, after_append in C.
  cbn [negb orb] in C. apply andb_prop in C as (C1 & C2). apply String.eqb_eq in C1. split; auto.
  destruct (find_entry sdxl_kohya (p' ++ x)%string) as [f|] eqn:F; [|discriminate].
  apply shape_eqb_eq in C2. intros A sd Fo. destruct (follows_find _ _ _ _ _ Fo F) as (t & Ht & Sh).
  exists t; split; auto. exists e; repeat split; auto. congruence.
Qed.

(** the second text encoder: keys read one to one *)
Definition stacked (k : string) : bool := suffixed ".in_proj_weight" k || suffixed ".in_proj_bias" k.
Definition te2_plain (k : string) : bool :=
  prefixed "conditioner.embedders.1." k && negb (stacked k) && negb (suffixed "text_projection" k)
  && negb (String.eqb k "conditioner.embedders.1.model.logit_scale").
Definition te2_entry_by (find : string -> option key_entry) (e : key_entry) : bool :=
  let k := ke_key e in let s := sdxl_clip_g_key k in
  negb (te2_plain k) ||
  (negb (prefixed "model.diffusion_model." k) && negb (prefixed "conditioner.embedders.0." k) && negb (stacked s)
   && match find s with Some f => shape_eqb (ke_shape f) (ke_shape e) | None => false end).
Lemma te2_entry_eq : forall f g e, (forall k, f k = g k) -> te2_entry_by f e = te2_entry_by g e.
Proof. intros f g e H; unfold te2_entry_by; cbv zeta. rewrite H; auto. Qed.
Notation te2_entry := (te2_entry_by (find_entry sdxl_kohya)).
Lemma sdxl_te2_plain : forallb te2_entry (entries sdxl_sgm) = true.
Proof.
  assert (H : (let ix := entry_index sdxl_kohya in forallb (te2_entry_by (lookup ix)) (entries sdxl_sgm)) = true)
    by (vm_cast_no_check (eq_refl true)).
  cbv zeta in H. etransitivity; [apply forallb_eq|exact H]. intros e. apply te2_entry_eq, kohya_index.
Qed.

(** the names in the layer [n] *)
Definition sgm_attn (n : nat) (what : string) : string :=
  cat ["conditioner.embedders.1.model.transformer.resblocks."; str n; ".attn."; what].
Definition kohya_attn (n : nat) (what : string) : string :=
  cat ["te2.text_model.encoder.layers."; str n; ".self_attn."; what].

Definition has_entry_by (find : string -> option key_entry) (k : string) (sh : list N) (opt : bool) : bool :=
  match find k with
  | Some e => shape_eqb (ke_shape e) sh && Bool.eqb (ke_optional e) opt
  | None => false
  end.
Definition in_proj_ok_by (find_kohya find_sgm : string -> option key_entry) (bias : bool) (n : nat) : bool :=
  let k := sgm_attn n (if bias then "in_proj_bias" else "in_proj_weight") in
  let s := sdxl_clip_g_key k in
  let sh := if bias then [1280%N] else [1280%N; 1280%N] in
  let w := if bias then "bias" else "weight" in
  let partial := krep ".in_proj_bias" "" (krep ".in_proj_weight" "" s) in
  negb (prefixed "model.diffusion_model." k) && negb (prefixed "conditioner.embedders.0." k)
  && prefixed "conditioner.embedders.1." k && negb (suffixed "text_projection" k)
  && stacked s && Bool.eqb (suffixed "bias" s) bias
  && forallb (fun x => String.eqb (cat [partial; "."; x; "_proj."; w]) (kohya_attn n (cat [x; "_proj."; w]))
                       && has_entry_by find_kohya (kohya_attn n (cat [x; "_proj."; w])) sh false) ["q"; "k"; "v"]
  && match find_sgm k with
     | Some e => shape_eqb (ke_shape e) (if bias then [3840%N] else [3840%N; 1280%N]) && Bool.eqb (ke_optional e) (n =? 31)
     | None => false
     end.
Lemma in_proj_ok_eq : forall f f' g g' b n, (forall k, f k = f' k) -> (forall k, g k = g' k) ->
  in_proj_ok_by f g b n = in_proj_ok_by f' g' b n.
Proof.
  intros f f' g g' b n Hf Hg. unfold in_proj_ok_by; cbv zeta. rewrite Hg. f_equal. f_equal.
  apply forallb_eq. intros x. unfold has_entry_by. rewrite Hf; auto.
Qed.
Notation in_proj_ok := (in_proj_ok_by (find_entry sdxl_kohya) (find_entry sdxl_sgm)).
Lemma sdxl_in_proj_ok : forallb (fun n => in_proj_ok false n && in_proj_ok true n) (seq 0 32) = true.
Proof.
  assert (H : (let k := entry_index sdxl_kohya in let s := entry_index sdxl_sgm in
    forallb (fun n => in_proj_ok_by (lookup k) (lookup s) false n && in_proj_ok_by (lookup k) (lookup s) true n) (seq 0 32)) = true)
    by (vm_cast_no_check (eq_refl true)).
  cbv zeta in H. etransitivity; [apply forallb_eq|exact H]. intros n.
  cbv beta. f_equal; apply in_proj_ok_eq; intros k; symmetry; apply entry_index_find.
Qed.

Lemma mapM3 : forall A B (f : A -> result B) a b c x y z,
  f a = Ok x -> f b = Ok y -> f c = Ok z -> mapM f [a; b; c] = Ok [x; y; z].
Proof. intros; simpl. rewrite H, H0, H1; reflexivity. Qed.

Lemma in_proj_conv : forall (bias : bool) (n : nat) A (sd : state_dict A), n < 32 -> follows sdxl_kohya sd ->
  let sh := if bias then [1280%N] else [1280%N; 1280%N] in
  let w := if bias then "bias" else "weight" in
  let name x := kohya_attn n (cat [x; "_proj."; w]) in
  let key := sgm_attn n (if bias then "in_proj_bias" else "in_proj_weight") in
  exists q k v, sd (name "q") = Ok q /\ sd (name "k") = Ok k /\ sd (name "v") = Ok v /\
    t_shape q = sh /\ t_shape k = sh /\ t_shape v = sh /\
    convert_sdxl_kohya sd key = vstack [q; k; v] /\
    declared_shape sdxl_sgm key (if bias then [3840%N] else [3840%N; 1280%N]) /\
    (n < 31 -> required sdxl_sgm key).
Proof.
  intros bias n A sd Hn Fo sh w name key.
  assert (OK : in_proj_ok bias n = true).
  { pose proof (proj1 (forallb_forall _ _) sdxl_in_proj_ok n) as H.
    assert (Hin : In n (seq 0 32)) by (apply in_seq; lia). specialize (H Hin).
    apply andb_prop in H as (H1 & H2). destruct bias; auto. }
  unfold in_proj_ok_by in OK. fold w in OK. fold sh in OK. fold key in OK.
  repeat (apply andb_prop in OK as (OK & ?)).
  rename H into Hdecl, H0 into Hsrc, H1 into Hbias, H2 into Hst, H3 into Htp, H4 into Hp1, H5 into Hp0, OK into Hu.
  cbn [forallb] in Hsrc. apply andb_prop in Hsrc as (Hq & Hsrc). apply andb_prop in Hsrc as (Hk & Hv).
  apply andb_prop in Hv as (Hv & _).
  apply andb_prop in Hq as (Eq & Hq). apply andb_prop in Hk as (Ek & Hk). apply andb_prop in Hv as (Ev & Hv).
  apply String.eqb_eq in Eq. apply String.eqb_eq in Ek. apply String.eqb_eq in Ev.
  assert (G : forall s, has_entry_by (find_entry sdxl_kohya) s sh false = true -> exists t, sd s = Ok t /\ t_shape t = sh).
  { intros s Hs. unfold has_entry_by in Hs. destruct (find_entry sdxl_kohya s) as [f|] eqn:F; [|discriminate].
    apply andb_prop in Hs as (Hs & _). apply shape_eqb_eq in Hs.
    destruct (follows_find _ _ _ _ _ Fo F) as (t & Ht & Sh). exists t; split; auto; congruence. }
  destruct (G _ Hq) as (q & Gq & Sq). destruct (G _ Hk) as (k & Gk & Sk). destruct (G _ Hv) as (v & Gv & Sv).
  exists q, k, v. repeat (split; [assumption|]). split; [|split].
  - unfold convert_sdxl_kohya. apply negb_true_iff in Hu. apply negb_true_iff in Hp0. rewrite Hu, Hp0, Hp1.
    unfold convert_sdxl_clip_g. apply negb_true_iff in Htp. rewrite Htp.
    unfold stacked in Hst. rewrite Hst. apply eqb_prop in Hbias. rewrite Hbias.
    erewrite mapM3.
    + cbn [bind]. symmetry; apply bind_ret.
    + etransitivity; [|apply Gq]. f_equal. exact Eq.
    + etransitivity; [|apply Gk]. f_equal. exact Ek.
    + etransitivity; [|apply Gv]. f_equal. exact Ev.
  - destruct (find_entry sdxl_sgm key) as [e|] eqn:F; [|discriminate].
    apply andb_prop in Hdecl as (S & _). apply shape_eqb_eq in S.
    apply find_entry_Some in F as (He & E). exists e; auto.
  - intros L. destruct (find_entry sdxl_sgm key) as [e|] eqn:F; [|discriminate].
    apply andb_prop in Hdecl as (_ & O). apply eqb_prop in O.
    apply find_entry_Some in F as (He & E). exists e; repeat split; auto.
    rewrite O. apply Nat.eqb_neq; lia.
Qed.

Definition text_projection_check (k : string) : bool :=
  negb (prefixed "model.diffusion_model." k) && negb (prefixed "conditioner.embedders.0." k)
  && prefixed "conditioner.embedders.1." k && suffixed "text_projection" k
  && negb (stacked "te2.text_projection.weight")
  && has_entry sdxl_kohya "te2.text_projection.weight" [1280; 1280]%N false
  && has_entry sdxl_sgm k [1280; 1280]%N true.
Lemma text_projection_ok : text_projection_check "conditioner.embedders.1.model.text_projection" = true.
Proof. vm_cast_no_check (eq_refl true). Qed.

(** What the kohya conversion gets right: the diffuser and the first text
    encoder are renamed, the second text encoder is renamed apart from its
    projection, which is transposed, and its stacked attention weights. *)
Theorem C41_sdxl_kohya_partial : forall A (sd : state_dict A), follows sdxl_kohya sd ->
  (forall x, In ("model.diffusion_model." ++ x)%string (keys sdxl_sgm) ->
     exists t, sd ("unet." ++ x)%string = Ok t /\
       convert_sdxl_kohya sd ("model.diffusion_model." ++ x)%string = Ok t /\
       declared_shape sdxl_sgm ("model.diffusion_model." ++ x)%string (t_shape t)) /\
  (forall x, In ("conditioner.embedders.0.transformer." ++ x)%string (keys sdxl_sgm) ->
     exists t, sd ("te1." ++ x)%string = Ok t /\
       convert_sdxl_kohya sd ("conditioner.embedders.0.transformer." ++ x)%string = Ok t /\
       declared_shape sdxl_sgm ("conditioner.embedders.0.transformer." ++ x)%string (t_shape t)) /\
  (forall k, In k (keys sdxl_sgm) -> te2_plain k = true ->
     exists s t, In s (keys sdxl_kohya) /\ sd s = Ok t /\ convert_sdxl_kohya sd k = Ok t /\
       declared_shape sdxl_sgm k (t_shape t)) /\
  (exists t t', sd "te2.text_projection.weight" = Ok t /\
     convert_sdxl_kohya sd "conditioner.embedders.1.model.text_projection" = Ok t' /\
     declared_shape sdxl_sgm "conditioner.embedders.1.model.text_projection" (t_shape t') /\
     forall i j, t_at t' [i; j] = t_at t [j; i]) /\
  (forall n, n < 32 -> exists q k v t,
     sd (kohya_attn n "q_proj.weight") = Ok q /\ sd (kohya_attn n "k_proj.weight") = Ok k /\
     sd (kohya_attn n "v_proj.weight") = Ok v /\
     convert_sdxl_kohya sd (sgm_attn n "in_proj_weight") = Ok t /\
     declared_shape sdxl_sgm (sgm_attn n "in_proj_weight") (t_shape t) /\
     forall i j, (i < 1280)%N ->
       t_at t [i; j] = t_at q [i; j] /\ t_at t [(1280 + i)%N; j] = t_at k [i; j] /\
       t_at t [(2560 + i)%N; j] = t_at v [i; j]).
Proof.
  intros A sd Fo. split; [|split; [|split; [|split]]].
  - intros x Hx. destruct (renamed_spec _ _ _ _ sdxl_unet_renamed Hx) as (R & H).
    destruct (H A sd Fo) as (t & Ht & Sh). exists t; repeat split; auto.
    unfold convert_sdxl_kohya. rewrite prefixed_append, R; auto.
  - intros x Hx. pose proof sdxl_te1_renamed as C.
    assert (C1 : forallb (renamed "conditioner.embedders.0.transformer." "te1." (krep "conditioner.embedders.0.transformer." "te1."))
                   (entries sdxl_sgm) = true).
    { apply forallb_forall. intros e He. pose proof (checked _ _ _ C He) as X. apply andb_prop in X as (X & _); exact X. }
    destruct (renamed_spec _ _ _ _ C1 Hx) as (R & H).
    destruct (H A sd Fo) as (t & Ht & Sh). exists t; repeat split; auto.
    apply In_keys in Hx as (e & He & E). pose proof (checked _ _ _ C He) as X.
    apply andb_prop in X as (_ & X). rewrite E, prefixed_append in X. cbn [negb orb] in X.
    apply andb_prop in X as (X1 & X2). apply negb_true_iff in X1.
    unfold convert_sdxl_kohya. rewrite X1, X2, R; auto.
  - intros k Hk P. apply In_keys in Hk as (e & He & E).
    pose proof (checked _ _ _ sdxl_te2_plain He) as C. unfold te2_entry_by in C. rewrite E, P in C.
    cbn [negb orb] in C. apply andb_prop in C as (C & C4). apply andb_prop in C as (C & C3).
    apply andb_prop in C as (C1 & C2). apply negb_true_iff in C1. apply negb_true_iff in C2. apply negb_true_iff in C3.
    destruct (find_entry sdxl_kohya (sdxl_clip_g_key k)) as [f|] eqn:F; [|discriminate].
    apply shape_eqb_eq in C4. destruct (follows_find _ _ _ _ _ Fo F) as (t & Ht & Sh).
    exists (sdxl_clip_g_key k), t.
    unfold te2_plain in P. apply andb_prop in P as (P & _). apply andb_prop in P as (P & P3).
    apply andb_prop in P as (P1 & P2). apply negb_true_iff in P3.
    split; [|split; [|split]]; auto.
    + apply find_entry_Some in F as (Hf & Ef). rewrite <- Ef. apply in_map; auto.
    + unfold convert_sdxl_kohya. rewrite C1, C2, P1. unfold convert_sdxl_clip_g.
      unfold stacked in C3. rewrite C3, P3, Ht. reflexivity.
    + exists e; repeat split; auto; congruence.
  - pose proof text_projection_ok as C. unfold text_projection_check in C.
    repeat (apply andb_prop in C as (C & ?)).
    rename H into Hd, H0 into Hs, H1 into Hns, H2 into Hsx, H3 into Hp1, H4 into Hp0, C into Hu.
    apply negb_true_iff in Hu. apply negb_true_iff in Hp0. apply negb_true_iff in Hns.
    unfold has_entry in Hs. destruct (find_entry sdxl_kohya _) as [f|] eqn:F in Hs; [|discriminate].
    apply andb_prop in Hs as (Hs & _). apply shape_eqb_eq in Hs.
    destruct (follows_find _ _ _ _ _ Fo F) as (t & Ht & Sh). rewrite Hs in Sh.
    exists t, (transpose t). split; [exact Ht|]. split; [|split].
    + unfold convert_sdxl_kohya. rewrite Hu, Hp0, Hp1. unfold convert_sdxl_clip_g, sdxl_clip_g_key.
      rewrite Hsx. unfold stacked in Hns. rewrite Hns, Ht. reflexivity.
    + unfold transpose; cbn [t_shape]. rewrite Sh. apply has_entry_shape in Hd. exact Hd.
    + intros i j; reflexivity.
  - intros n Hn. destruct (in_proj_conv false n A sd Hn Fo) as (q & k & v & Hq & Hk & Hv & Sq & Sk & Sv & C & D & _).
    destruct (vstack_matrices A q k v 1280%N 1280%N Sq Sk Sv) as (t & Et & St & At).
    exists q, k, v, t. split; [exact Hq|]. split; [exact Hk|]. split; [exact Hv|].
    split; [rewrite C; exact Et|]. split; [rewrite St; exact D|]. exact At.
Qed.

(** Which sources each of those keys reads; no source is read twice, and every
    kohya key of the diffuser and the text encoders is read. *)
Definition sdxl_sources (k : string) : list string :=
  if prefixed "model.diffusion_model." k then [krep "model.diffusion_model." "unet." k]
  else if prefixed "conditioner.embedders.0." k then [krep "conditioner.embedders.0.transformer." "te1." k]
  else let s := sdxl_clip_g_key k in
       if stacked s then
         map (fun x => cat [krep ".in_proj_bias" "" (krep ".in_proj_weight" "" s); "."; x; "_proj."; if suffixed "bias" s then "bias" else "weight"])
             ["q"; "k"; "v"]
       else [s].
Definition sdxl_converted : list string :=
  filter (fun k => prefixed "model.diffusion_model." k || prefixed "conditioner.embedders.0." k
                   || (prefixed "conditioner.embedders.1." k && negb (String.eqb k "conditioner.embedders.1.model.logit_scale")))
         (keys sdxl_sgm).
Lemma sdxl_sources_nodup : nodupb (flat_map sdxl_sources sdxl_converted) = true.
Proof. vm_cast_no_check (eq_refl true). Qed.
Lemma sdxl_sources_all :
  all_used [] (flat_map sdxl_sources sdxl_converted) (filter (fun k => negb (prefixed "first_stage_model." k)) (keys sdxl_kohya)) = true.
Proof. vm_cast_no_check (eq_refl true). Qed.

(** a changed tensor at any other key leaves the result as it is *)
Lemma sdxl_kohya_reads : forall A (sd sd' : state_dict A) k,
  prefixed "first_stage_model." k = false ->
  (prefixed "model.diffusion_model." k || prefixed "conditioner.embedders.0." k || prefixed "conditioner.embedders.1." k = true) ->
  (forall s, In s (sdxl_sources k) -> sd s = sd' s) ->
  convert_sdxl_kohya sd k = convert_sdxl_kohya sd' k.
Proof.
  intros A sd sd' k V P H. unfold convert_sdxl_kohya, sdxl_sources in *.
  destruct (prefixed "model.diffusion_model." k). { apply H; left; reflexivity. }
  destruct (prefixed "conditioner.embedders.0." k). { apply H; left; reflexivity. }
  cbn [orb] in P. rewrite P. unfold convert_sdxl_clip_g. fold (stacked (sdxl_clip_g_key k)).
  cbv zeta in H. destruct (stacked (sdxl_clip_g_key k)).
  - cbn [map In] in H. f_equal. cbn [mapM].
    rewrite (H _ (or_introl eq_refl)), (H _ (or_intror (or_introl eq_refl))), (H _ (or_intror (or_intror (or_introl eq_refl)))).
    reflexivity.
  - rewrite (H _ (or_introl eq_refl)); reflexivity.
Qed.

Theorem C41_sdxl_kohya_sources : exists sources : string -> list string,
  (forall k, In k sdxl_converted -> forall A (sd sd' : state_dict A),
     (forall s, In s (sources k) -> sd s = sd' s) -> convert_sdxl_kohya sd k = convert_sdxl_kohya sd' k) /\
  (forall k k' s, In k sdxl_converted -> In k' sdxl_converted ->
     In s (sources k) -> In s (sources k') -> k = k') /\
  (forall s, In s (keys sdxl_kohya) -> prefixed "first_stage_model." s = false ->
     exists k, In k sdxl_converted /\ In s (sources k)).
Proof.
  assert (V : forallb (fun k => negb (prefixed "first_stage_model." k)) sdxl_converted = true)
    by (vm_cast_no_check (eq_refl true)).
  exists sdxl_sources; split; [|split].
  - intros k Hk A sd sd' H. apply sdxl_kohya_reads; auto.
    + pose proof (proj1 (forallb_forall _ _) V k Hk) as V'; clear V; rename V' into V. cbv beta in V. apply negb_true_iff; auto.
    + apply filter_In in Hk as (_ & Hk). apply orb_prop in Hk as [Hk|Hk].
      * rewrite Hk; reflexivity.
      * apply andb_prop in Hk as (Hk & _). rewrite Hk. apply orb_true_r.
  - intros k k' s Hk Hk' Hs Hs'. eapply NoDup_flat_map_disjoint; eauto.
    apply nodupb_NoDup, sdxl_sources_nodup.
  - intros s Hs P.
    assert (U : In s (flat_map sdxl_sources sdxl_converted)).
    { eapply all_used_In; [apply sdxl_sources_all| |intros []].
      apply filter_In; split; auto. rewrite P; reflexivity. }
    apply in_flat_map in U. exact U.
Qed.

(** What it gets wrong.  Every key of the autoencoder raises, although the
    layout declares the very key that was asked for, in the same shape; and the
    31 required stacked biases come out as 3 x 1280 instead of 3840. *)
Definition vae_entry_fails_by (find : string -> option key_entry) (e : key_entry) : bool :=
  negb (prefixed "first_stage_model." (ke_key e)) ||
  (negb (prefixed "model.diffusion_model." (ke_key e)) && negb (prefixed "conditioner.embedders.0." (ke_key e))
   && negb (prefixed "conditioner.embedders.1." (ke_key e))
   && negb (ke_optional e) && has_entry_by find (ke_key e) (ke_shape e) false
   && match find (fst (vae_source (ke_key e))) with Some _ => false | None => true end).
Lemma vae_entry_fails_eq : forall f g e, (forall k, f k = g k) -> vae_entry_fails_by f e = vae_entry_fails_by g e.
Proof. intros f g e H; unfold vae_entry_fails_by, has_entry_by. rewrite !H; auto. Qed.
Notation vae_entry_fails := (vae_entry_fails_by (find_entry sdxl_kohya)).
Lemma sdxl_vae_fails : forallb vae_entry_fails (entries sdxl_sgm) = true.
Proof.
  assert (H : (let ix := entry_index sdxl_kohya in forallb (vae_entry_fails_by (lookup ix)) (entries sdxl_sgm)) = true)
    by (vm_cast_no_check (eq_refl true)).
  cbv zeta in H. etransitivity; [apply forallb_eq|exact H]. intros e. apply vae_entry_fails_eq, kohya_index.
Qed.

Theorem C41_sdxl_kohya_refuted : forall A (sd : state_dict A), follows sdxl_kohya sd ->
  (forall k, In k (keys sdxl_sgm) -> prefixed "first_stage_model." k = true ->
     required sdxl_sgm k /\ is_ok (sd k) = true /\
     (forall sh, declared_shape sdxl_sgm k sh -> declared_shape sdxl_kohya k sh) /\
     exists s, convert_sdxl_kohya sd k = Err (StateDictKeyError s)) /\
  (forall n, n < 31 -> required sdxl_sgm (sgm_attn n "in_proj_bias") /\
     declared_shape sdxl_sgm (sgm_attn n "in_proj_bias") [3840%N] /\
     exists t, convert_sdxl_kohya sd (sgm_attn n "in_proj_bias") = Ok t /\ t_shape t = [3%N; 1280%N]).
Proof.
  assert (ND : nodupb (keys sdxl_sgm) = true) by (vm_cast_no_check (eq_refl true)).
  apply nodupb_NoDup in ND.
  intros A sd Fo; split.
  - intros k Hk P. apply In_keys in Hk as (e & He & E).
    pose proof (checked _ _ _ sdxl_vae_fails He) as C. unfold vae_entry_fails_by in C. rewrite E, P in C.
    cbn [negb orb] in C. repeat (apply andb_prop in C as (C & ?)).
    rename H into Hno, H0 into Hhas, H1 into Hopt, H2 into Hp1, H3 into Hp0, C into Hu.
    apply negb_true_iff in Hu. apply negb_true_iff in Hp0. apply negb_true_iff in Hp1. apply negb_true_iff in Hopt.
    split; [exists e; auto|]. pose proof (has_entry_shape _ _ _ _ Hhas) as Hd. split; [|split].
    + destruct Hd as (f & Hf & Ef & _). destruct Fo as (Fo & _). destruct (Fo f Hf) as (t & Ht & _).
      rewrite <- Ef, Ht; reflexivity.
    + intros sh (e' & He' & E' & S'). assert (e' = e).
      { apply (NoDup_map_inj ke_key (entries sdxl_sgm)); auto; congruence. }
      subst e'. rewrite <- S'; auto.
    + unfold declares in Hno. destruct (find_entry sdxl_kohya (fst (vae_source k))) eqn:F; [discriminate|].
      exists (fst (vae_source k)). unfold convert_sdxl_kohya. rewrite Hu, Hp0, Hp1, P.
      unfold convert_vae. destruct (vae_source k) as [s r]. cbn [fst] in *.
      rewrite (follows_absent _ _ _ _ Fo F). reflexivity.
  - intros n Hn. destruct (in_proj_conv true n A sd ltac:(lia) Fo) as (q & k & v & _ & _ & _ & Sq & Sk & Sv & C & D & R).
    destruct (vstack_vectors A q k v 1280%N Sq Sk Sv) as (t & Et & St).
    split; [apply R; auto|]. split; [exact D|]. exists t; split; auto. rewrite C; exact Et.
Qed.

Example C41_kohya_applies : follows sdxl_kohya (zeros sdxl_kohya) /\
  existsb (fun k => prefixed "first_stage_model." k) (keys sdxl_sgm) = true /\
  te2_plain "conditioner.embedders.1.model.transformer.resblocks.3.mlp.c_fc.weight" = true /\
  existsb (String.eqb "conditioner.embedders.1.model.transformer.resblocks.3.mlp.c_fc.weight") (keys sdxl_sgm) = true.
Proof.
  split; [apply zeros_follows, sdxl_kohya_nodup|].
  split; [vm_cast_no_check (eq_refl true)|]. split; vm_cast_no_check (eq_refl true).
Qed.

(** ** diffusers *)

Definition xl_source (k : string) : string * bool := (unet_source sdxl_map_layer sdxl_unet_map k, false).
(** the second upper block's third group: its attention and its upsampler *)
Definition out2_group (k : string) : bool :=
  prefixed "model.diffusion_model.output_blocks.2.1." k || prefixed "model.diffusion_model.output_blocks.2.2." k.
Definition xl_scope (k : string) : bool := prefixed "model.diffusion_model." k && negb (out2_group k).

Lemma xl_map_ok : all_map sdxl_diffusers xl_source xl_scope [] sdxl_sgm = true.
Proof. vm_cast_no_check (eq_refl true). Qed.
Lemma xl_distinct : nodupb (map (fun k => fst (xl_source k)) (selection xl_scope [] sdxl_sgm)) = true.
Proof. vm_cast_no_check (eq_refl true). Qed.
Lemma xl_missing : all_missing sdxl_diffusers (fun k => fst (xl_source k)) (fun e => out2_group (ke_key e)) sdxl_sgm = true.
Proof. vm_cast_no_check (eq_refl true). Qed.
Lemma xl_prefix : forallb (fun k => negb (prefixed "model.diffusion_model." k) || prefixed "model.diffusion_model" k) (keys sdxl_sgm)
  && forallb (fun k => prefixed "model.diffusion_model." k || negb (prefixed "model.diffusion_model" k)) (keys sdxl_sgm)
  && forallb (fun k => negb (out2_group k) || prefixed "model.diffusion_model." k) (keys sdxl_sgm) = true.
Proof. vm_cast_no_check (eq_refl true). Qed.

Lemma xl_prefixed : forall k, In k (keys sdxl_sgm) -> prefixed "model.diffusion_model" k = prefixed "model.diffusion_model." k.
Proof.
  intros k Hk. pose proof xl_prefix as H. apply andb_prop in H as (H & _). apply andb_prop in H as (H1 & H2).
  pose proof (proj1 (forallb_forall _ _) H1 k Hk) as H1'; clear H1; rename H1' into H1. cbv beta in H1.
  pose proof (proj1 (forallb_forall _ _) H2 k Hk) as H2'; clear H2; rename H2' into H2. cbv beta in H2.
  destruct (prefixed "model.diffusion_model." k), (prefixed "model.diffusion_model" k); cbn [negb orb] in *; congruence.
Qed.
Lemma required_key : forall c k, required c k -> In k (keys c).
Proof. intros c k (e & He & E & _). rewrite <- E. apply in_map; auto. Qed.

(** Every diffuser key outside the two groups is read unchanged from a key the
    diffusers layout declares, each from its own; all other keys raise their
    own name, as the layout covers the diffuser only. *)
Theorem C41_sdxl_diffusers_partial :
  exists source : string -> string,
    (forall k, required sdxl_sgm k -> prefixed "model.diffusion_model." k = true -> out2_group k = false ->
       In (source k) (keys sdxl_diffusers) /\
       forall A (sd : state_dict A), follows sdxl_diffusers sd ->
         exists t, sd (source k) = Ok t /\ convert_sdxl_diffusers sd k = Ok t /\
           declared_shape sdxl_sgm k (t_shape t)) /\
    (forall k k', required sdxl_sgm k -> prefixed "model.diffusion_model." k = true -> out2_group k = false ->
       required sdxl_sgm k' -> prefixed "model.diffusion_model." k' = true -> out2_group k' = false ->
       source k = source k' -> k = k') /\
    (forall k, In k (keys sdxl_sgm) -> prefixed "model.diffusion_model." k = false ->
       forall A (sd : state_dict A), convert_sdxl_diffusers sd k = Err (StateDictKeyError k)).
Proof.
  exists (fun k => fst (xl_source k)); split; [|split].
  - intros k R P G.
    assert (Sc : xl_scope k = true) by (unfold xl_scope; rewrite P, G; reflexivity).
    destruct (keys_map _ _ _ _ _ _ xl_map_ok R Sc (fun H => match H with end)) as (D & H).
    split; auto. intros A sd Fo. destruct (H A sd Fo) as (t & Ht & Sh).
    exists t; split; [exact Ht|]. split; [|exact Sh].
    unfold convert_sdxl_diffusers. rewrite (xl_prefixed k (required_key _ _ R)), P. exact Ht.
  - intros k k' R P G R' P' G' E.
    apply (sources_distinct _ xl_scope [] sdxl_sgm k k' xl_distinct); auto;
      unfold xl_scope; try rewrite P, G; try rewrite P', G'; reflexivity.
  - intros k Hk P A sd. unfold convert_sdxl_diffusers. rewrite (xl_prefixed k Hk), P. reflexivity.
Qed.

(** Every key of the two groups is looked up under a name the layout lacks. *)
Theorem C41_sdxl_diffusers_refuted :
  required sdxl_sgm "model.diffusion_model.output_blocks.2.1.norm.weight" /\
  required sdxl_sgm "model.diffusion_model.output_blocks.2.2.conv.weight" /\
  (exists sh, declared_shape sdxl_sgm "model.diffusion_model.output_blocks.2.1.norm.weight" sh /\
              declared_shape sdxl_diffusers "up_blocks.0.attentions.2.norm.weight" sh) /\
  (exists sh, declared_shape sdxl_sgm "model.diffusion_model.output_blocks.2.2.conv.weight" sh /\
              declared_shape sdxl_diffusers "up_blocks.0.upsamplers.0.conv.weight" sh) /\
  forall k, In k (keys sdxl_sgm) -> out2_group k = true ->
    forall A (sd : state_dict A), follows sdxl_diffusers sd ->
      exists s, ~ In s (keys sdxl_diffusers) /\ convert_sdxl_diffusers sd k = Err (StateDictKeyError s).
Proof.
  assert (H1 : has_entry sdxl_sgm "model.diffusion_model.output_blocks.2.1.norm.weight" [1280%N] false = true) by (vm_cast_no_check (eq_refl true)).
  assert (H2 : has_entry sdxl_sgm "model.diffusion_model.output_blocks.2.2.conv.weight" [1280; 1280; 3; 3]%N false = true) by (vm_cast_no_check (eq_refl true)).
  assert (H3 : has_entry sdxl_diffusers "up_blocks.0.attentions.2.norm.weight" [1280%N] false = true) by (vm_cast_no_check (eq_refl true)).
  assert (H4 : has_entry sdxl_diffusers "up_blocks.0.upsamplers.0.conv.weight" [1280; 1280; 3; 3]%N false = true) by (vm_cast_no_check (eq_refl true)).
  split; [apply (has_entry_required _ _ _ H1)|]. split; [apply (has_entry_required _ _ _ H2)|].
  split; [exists [1280%N]; exact (conj (has_entry_shape _ _ _ _ H1) (has_entry_shape _ _ _ _ H3))|].
  split; [exists [1280; 1280; 3; 3]%N; exact (conj (has_entry_shape _ _ _ _ H2) (has_entry_shape _ _ _ _ H4))|].
  intros k Hk G A sd Fo. apply In_keys in Hk as Hk2. destruct Hk2 as (e & He & E).
  destruct (keys_missing _ _ _ _ e xl_missing He) as (M & H); [rewrite E; exact G|].
  rewrite E in *. exists (fst (xl_source k)); split; auto.
  pose proof xl_prefix as X. apply andb_prop in X as (_ & X).
  pose proof (proj1 (forallb_forall _ _) X k Hk) as X'; clear X; rename X' into X. cbv beta in X. rewrite G in X. cbn [negb orb] in X.
  unfold convert_sdxl_diffusers. rewrite (xl_prefixed k Hk), X. exact (H A sd Fo).
Qed.

Example C41_diffusers_applies : follows sdxl_diffusers (zeros sdxl_diffusers) /\
  required sdxl_sgm "model.diffusion_model.input_blocks.4.1.proj_in.weight" /\
  xl_scope "model.diffusion_model.input_blocks.4.1.proj_in.weight" = true.
Proof.
  split; [apply zeros_follows, sdxl_diffusers_nodup|]. split.
  - apply has_entry_required with (sh := [640; 640]%N). vm_cast_no_check (eq_refl true).
  - vm_cast_no_check (eq_refl true).
Qed.
Print Assumptions C41_sdxl_kohya_partial.
Print Assumptions C41_sdxl_kohya_sources.
Print Assumptions C41_sdxl_kohya_refuted.
Print Assumptions C41_sdxl_diffusers_partial.
Print Assumptions C41_sdxl_diffusers_refuted.
