(** C42, C43, C45: block weights, exchange_ema and the flux layouts. *)
From Coq Require Import String Ascii List Bool Arith NArith Lia.
From Verif Require Import Base PyStr Dec ModelKeys ModelKeyConv SpecKeys KeysProofs.
From Verif Require DataSd1Ldm DataSdxlSgm DataSd1Blocks DataSdxlBlocks DataFlux DataFluxDiffuser.
Import ListNotations.
Open Scope string_scope.
Open Scope list_scope.
Open Scope nat_scope.

Notation sd1_ldm := DataSd1Ldm.config.
Notation sdxl_sgm := DataSdxlSgm.config.
Notation sd1_blocks := DataSd1Blocks.config.
Notation sdxl_blocks := DataSdxlBlocks.config.
Notation flux := DataFlux.config.
Notation flux_diffuser := DataFluxDiffuser.config.

(** ** C42 *)

(** *** A decision procedure for the specification of blocks *)
Definition ceqb (a b : list ascii) : bool := if list_eq_dec Ascii.ascii_dec a b then true else false.
Lemma ceqb_eq : forall a b, ceqb a b = true -> a = b.
Proof. intros a b; unfold ceqb; destruct list_eq_dec; congruence. Qed.
Lemma ceqb_neq : forall a b, ceqb a b = false -> a <> b.
Proof. intros a b; unfold ceqb; destruct list_eq_dec; congruence. Qed.

Definition digit_b (c : ascii) : bool := let n := N_of_ascii c in ((48 <=? n) && (n <? 58))%N.
Definition value (w : list ascii) : N := fold_left (fun a c => (10 * a + (N_of_ascii c - 48))%N) w 0%N.
Definition number_b (w : list ascii) : bool := negb (length w =? 0) && forallb digit_b w.

Lemma digit_char : forall c, digit_b c = true -> c = ascii_of_N (48 + (N_of_ascii c - 48)) /\ (N_of_ascii c - 48 < 10)%N.
Proof.
  intros c H; unfold digit_b in H. apply andb_prop in H as (H1 & H2).
  apply N.leb_le in H1. apply N.ltb_lt in H2. split; [|lia].
  replace (48 + (N_of_ascii c - 48))%N with (N_of_ascii c) by lia. symmetry; apply ascii_N_embedding.
Qed.
Lemma number_b_spec : forall w, number_b w = true -> number w (value w).
Proof.
  induction w as [|c w IH] using rev_ind; unfold number_b; intros H; [discriminate|].
  apply andb_prop in H as (_ & H). rewrite forallb_app in H. apply andb_prop in H as (Hw & Hc).
  cbn [forallb] in Hc. rewrite andb_true_r in Hc. destruct (digit_char c Hc) as (Ec & Lc).
  unfold value. rewrite fold_left_app. cbn [fold_left]. fold (value w).
  destruct w as [|c' w'].
  - cbn. rewrite Ec at 1. replace (N_of_ascii c - 48)%N with (10 * 0 + (N_of_ascii c - 48))%N by lia.
    simpl app. replace (0 + (N_of_ascii c - 48))%N with (N_of_ascii c - 48)%N by lia. constructor; auto.
  - rewrite Ec at 1. apply number_more; [|exact Lc]. apply IH. unfold number_b. rewrite Hw; reflexivity.
Qed.

Definition block_name_b (prefix : string) (n : N) (b : string) : bool :=
  (n <? 100)%N && ceqb (word b) (word prefix ++ [ascii_of_N (48 + n / 10); ascii_of_N (48 + n mod 10)]).
Lemma block_name_b_spec : forall p n b, block_name_b p n b = true -> block_name p n b.
Proof.
  intros p n b H; unfold block_name_b in H. apply andb_prop in H as (L & E).
  apply N.ltb_lt in L. apply ceqb_eq in E. exists (n / 10)%N, (n mod 10)%N. repeat split; auto.
  - apply N.div_lt_upper_bound; lia.
  - apply N.mod_lt; lia.
  - apply N.div_mod; lia.
Qed.

Definition block_b (last vae : string) (ws : list (list ascii)) (b : string) : bool :=
  match ws with
  | w0 :: rest =>
      if ceqb w0 (word "model") then
        match rest with
        | w1 :: w2 :: rest' =>
            ceqb w1 (word "diffusion_model") &&
            (if ceqb w2 (word "input_blocks") then
               match rest' with w :: _ => number_b w && block_name_b "IN" (value w) b | [] => false end
             else if ceqb w2 (word "middle_block") then String.eqb b "M00"
             else if ceqb w2 (word "output_blocks") then
               match rest' with w :: _ => number_b w && block_name_b "OUT" (value w) b | [] => false end
             else if ceqb w2 (word "out") then String.eqb b last
             else if ceqb w2 (word "time_embed") || ceqb w2 (word "label_emb") then String.eqb b "BASE"
             else false)
        | _ => false
        end
      else if ceqb w0 (word "first_stage_model") then String.eqb b vae
      else String.eqb b "BASE"
  | [] => false
  end.
Lemma block_b_spec : forall last vae ws b, block_b last vae ws b = true -> block_spec last vae ws b.
Proof.
  intros last vae [|w0 rest] b H; [discriminate|]. unfold block_b in H.
  destruct (ceqb w0 (word "model")) eqn:E0.
  - apply ceqb_eq in E0; subst w0. destruct rest as [|w1 [|w2 rest]]; try discriminate.
    apply andb_prop in H as (E1 & H). apply ceqb_eq in E1; subst w1.
    destruct (ceqb w2 (word "input_blocks")) eqn:E2.
    { apply ceqb_eq in E2; subst w2. destruct rest as [|w rest]; [discriminate|].
      apply andb_prop in H as (Hn & Hb). eapply bs_in; [apply number_b_spec|apply block_name_b_spec]; eauto. }
    destruct (ceqb w2 (word "middle_block")) eqn:E3.
    { apply ceqb_eq in E3; subst w2. apply String.eqb_eq in H; subst. constructor. }
    destruct (ceqb w2 (word "output_blocks")) eqn:E4.
    { apply ceqb_eq in E4; subst w2. destruct rest as [|w rest]; [discriminate|].
      apply andb_prop in H as (Hn & Hb). eapply bs_out; [apply number_b_spec|apply block_name_b_spec]; eauto. }
    destruct (ceqb w2 (word "out")) eqn:E5.
    { apply ceqb_eq in E5; subst w2. apply String.eqb_eq in H; subst. constructor. }
    destruct (ceqb w2 (word "time_embed")) eqn:E6.
    { apply ceqb_eq in E6; subst w2. apply String.eqb_eq in H; subst. constructor. }
    destruct (ceqb w2 (word "label_emb")) eqn:E7; [|discriminate].
    apply ceqb_eq in E7; subst w2. apply String.eqb_eq in H; subst. constructor.
  - destruct (ceqb w0 (word "first_stage_model")) eqn:E1.
    + apply ceqb_eq in E1; subst. apply String.eqb_eq in H; subst. constructor.
    + apply String.eqb_eq in H; subst. apply ceqb_neq in E0, E1. constructor; auto.
Qed.

(** splitting at dots gives the words *)
Lemma py_split_words : forall l, py_split "." l <> [] /\ l = words_joined (py_split "." l) /\
  forall w, In w (py_split "." l) -> ~ In "."%char w.
Proof.
  induction l as [|c l (Hn & Hj & Hd)]; cbn [py_split].
  - repeat split; [discriminate|]. intros w [H|[]]; subst; auto.
  - destruct (Ascii.eqb_spec c ".") as [E|E].
    + subst. repeat split; [discriminate| |].
      * destruct (py_split "." l) eqn:X; [congruence|]. cbn [words_joined app]. f_equal. exact Hj.
      * intros w [H|H]; [subst; auto|apply Hd; auto].
    + destruct (py_split "." l) as [|w0 ws] eqn:X; [congruence|].
      repeat split; [discriminate| |].
      * destruct ws; cbn [words_joined app] in *; f_equal; exact Hj.
      * intros w [H|H].
        -- subst w. intros [H|H]; [congruence|]. apply (Hd w0); [left; auto|auto].
        -- apply Hd; right; auto.
Qed.

Opaque DataSd1Ldm.config DataSdxlSgm.config DataSd1Blocks.config DataSdxlBlocks.config
  DataFlux.config DataFluxDiffuser.config sd1_block sdxl_block.

Definition blocks_ok (blocks full : yaml_config) (last vae : string) (block : string -> string) : bool :=
  forallb (fun k => block_b last vae (py_split "." (s2l k)) (block k) && declares blocks (block k)) (keys full).
Definition blocks_used (blocks full : yaml_config) (block : string -> string) : bool :=
  all_used [] (map block (keys full)) (keys blocks).
Lemma sd1_blocks_ok : blocks_ok sd1_blocks sd1_ldm "OUT11" "BASE" sd1_block && blocks_used sd1_blocks sd1_ldm sd1_block = true.
Proof. vm_cast_no_check (eq_refl true). Qed.
Lemma sdxl_blocks_ok : blocks_ok sdxl_blocks sdxl_sgm "OUT08" "VAE" sdxl_block && blocks_used sdxl_blocks sdxl_sgm sdxl_block = true.
Proof. vm_cast_no_check (eq_refl true). Qed.

(** [block] gives every key of [full] the block its dotted name says, one the
    blocks config declares; and every declared block governs some key. *)
Definition blocks_reach (blocks full : yaml_config) (last vae : string)
    (convert : forall T, (string -> result T) -> string -> result T) : Prop :=
  (forall k, In k (keys full) -> exists b ws,
     words_of k ws /\ block_spec last vae ws b /\ In b (keys blocks) /\
     forall T (values : string -> result T), convert T values k = values b) /\
  (forall b, In b (keys blocks) -> exists k, In k (keys full) /\
     forall T (values : string -> result T), convert T values k = values b).

Lemma blocks_reach_of : forall blocks full last vae block,
  blocks_ok blocks full last vae block && blocks_used blocks full block = true ->
  blocks_reach blocks full last vae (fun T values k => values (block k)).
Proof.
  intros blocks full last vae block H. apply andb_prop in H as (H & U). split.
  - intros k Hk. pose proof (proj1 (forallb_forall _ _) H k Hk) as C. apply andb_prop in C as (C1 & C2).
    exists (block k), (py_split "." (s2l k)).
    destruct (py_split_words (s2l k)) as (W1 & W2 & W3). repeat split; auto.
    + apply block_b_spec; auto.
    + unfold declares in C2. destruct (find_entry blocks (block k)) as [e|] eqn:F; [|discriminate].
      apply find_entry_Some in F as (He & E). rewrite <- E. apply in_map; auto.
  - intros b Hb. pose proof (all_used_In _ _ _ _ U Hb (fun H => H)) as X.
    apply in_map_iff in X as (k & E & Hk). exists k; split; auto. intros; rewrite E; auto.
Qed.

Theorem C42_blocks :
  blocks_reach sd1_blocks sd1_ldm "OUT11" "BASE" (@convert_sd1_blocks) /\
  blocks_reach sdxl_blocks sdxl_sgm "OUT08" "VAE" (@convert_sdxl_blocks).
Proof. split; apply blocks_reach_of; [apply sd1_blocks_ok | apply sdxl_blocks_ok]. Qed.

Example C42_applies :
  existsb (String.eqb "model.diffusion_model.output_blocks.11.0.in_layers.0.weight") (keys sd1_ldm) = true /\
  convert_sd1_blocks (fun b => if String.eqb b "OUT11" then Ok 7 else Ok 0) "model.diffusion_model.output_blocks.11.0.in_layers.0.weight" = Ok 7.
Proof. split; vm_compute; reflexivity. Qed.

(** ** C43 *)

(** the counterpart of a diffuser key under the ema prefix: the name after
    "model." without its dots *)
Definition ema_name (k : string) : string :=
  ("model_ema." ++ string_of_list_ascii (filter (fun c => negb (Ascii.eqb c ".")) (skipn 6 (list_ascii_of_string k))))%string.
Definition component (c : yaml_config) (name : string) : list string :=
  map ke_key (flat_map snd (filter (fun p => String.eqb (fst p) name) (yc_components c))).

Definition ema_src (k : string) : string := ema_source "sd1-ldm" (keys sd1_ldm) k.
(* the names are indexed once, so that the searches below stay short *)
Definition ema_table : list (string * string) := map (fun k => (k, to_ema_key "sd1-ldm" k)) (keys sd1_ldm).
Definition ema_src_fast (ks : tree string) (back : tree (string * string)) (k : string) : string :=
  let e := to_ema_key "sd1-ldm" k in
  if is_in ks e then e
  else match lookup back k with Some p => fst p | None => k end.
Lemma is_in_existsb : forall l k, is_in (names l) k = existsb (String.eqb k) l.
Proof. intros l k. apply eq_true_iff_eq. rewrite is_in_names, existsb_In. tauto. Qed.
Lemma ema_src_fast_eq : forall k, ema_src_fast (names (keys sd1_ldm)) (index snd ema_table) k = ema_src k.
Proof.
  intros k; unfold ema_src_fast, ema_src, ema_source, ema_table. cbv zeta.
  rewrite is_in_existsb, lookup_index.
  destruct (existsb (String.eqb (to_ema_key "sd1-ldm" k)) (keys sd1_ldm)); [reflexivity|].
  generalize (keys sd1_ldm) as l. induction l as [|x l IH]; cbn [map find]; [reflexivity|].
  cbn [snd fst]. destruct (String.eqb (to_ema_key "sd1-ldm" x) k); auto.
Qed.
Definition ema_check (table : list (string * string)) (ks ema diffuser : list string) : bool :=
  let back := index snd table in
  let iks := names ks in
  let iema := names ema in
  let idiff := names diffuser in
  let ipaired := names (map ema_name diffuser) in
  forallb (fun k => is_in iema (ema_name k) &&
                    String.eqb (ema_src_fast iks back k) (ema_name k) &&
                    String.eqb (ema_src_fast iks back (ema_name k)) k) diffuser &&
  forallb (fun k => is_in idiff k || is_in ipaired k || String.eqb (ema_src_fast iks back k) k) ks.
Lemma ema_checked : ema_check ema_table (keys sd1_ldm) (component sd1_ldm "ema") (component sd1_ldm "diffuser") = true.
Proof. vm_cast_no_check (eq_refl true). Qed.

Lemma ema_check_spec : forall ks ema diffuser,
  ema_check ema_table ks ema diffuser = true -> ks = keys sd1_ldm ->
  (forall k, In k diffuser -> In (ema_name k) ema /\ ema_src k = ema_name k /\ ema_src (ema_name k) = k) /\
  (forall k, In k ks -> ~ In k diffuser -> (forall d, In d diffuser -> k <> ema_name d) -> ema_src k = k).
Proof.
  intros ks ema diffuser H Eks. unfold ema_check in H. cbv zeta in H. apply andb_prop in H as (H1 & H2). split.
  - intros k Hk. pose proof (proj1 (forallb_forall _ _) H1 k Hk) as C.
    apply andb_prop in C as (C & C3). apply andb_prop in C as (C1 & C2).
    apply is_in_names in C1. apply String.eqb_eq in C2. apply String.eqb_eq in C3.
    rewrite Eks, ema_src_fast_eq in C2, C3. auto.
  - intros k Hk N1 N2. pose proof (proj1 (forallb_forall _ _) H2 k Hk) as C.
    apply orb_prop in C as [C|C]; [apply orb_prop in C as [C|C]|].
    + apply is_in_names in C; tauto.
    + apply is_in_names in C. apply in_map_iff in C as (d & E & Hd). exfalso; apply (N2 d Hd); auto.
    + apply String.eqb_eq in C. rewrite Eks, ema_src_fast_eq in C; auto.
Qed.

Theorem C43_exchange_ema : forall T (model : string -> result T),
  let exchange m := exchange_ema "sd1-ldm" (keys sd1_ldm) m in
  (forall k, In k (component sd1_ldm "diffuser") ->
     In (ema_name k) (component sd1_ldm "ema") /\
     exchange model k = model (ema_name k) /\ exchange model (ema_name k) = model k) /\
  (forall k, In k (keys sd1_ldm) -> ~ In k (component sd1_ldm "diffuser") ->
     (forall d, In d (component sd1_ldm "diffuser") -> k <> ema_name d) -> exchange model k = model k) /\
  (forall k, In k (keys sd1_ldm) -> exchange (exchange model) k = model k).
Proof.
  intros T model exchange. destruct (ema_check_spec _ _ _ ema_checked eq_refl) as (H1 & H2).
  assert (X : forall m k, exchange m k = m (ema_src k)) by reflexivity.
  split; [|split].
  - intros k Hk. destruct (H1 k Hk) as (A & B & C). rewrite !X, B, C. auto.
  - intros k Hk N1 N2. rewrite X, (H2 k Hk N1 N2); auto.
  - intros k Hk. rewrite !X.
    destruct (in_dec string_dec k (component sd1_ldm "diffuser")) as [D|D].
    { destruct (H1 k D) as (_ & B & C). rewrite B, C; auto. }
    destruct (in_dec string_dec k (map ema_name (component sd1_ldm "diffuser"))) as [E|E].
    { apply in_map_iff in E as (d & E & Hd). subst k. destruct (H1 d Hd) as (_ & B & C). rewrite C, B; auto. }
    assert (F : ema_src k = k).
    { apply H2; auto. intros d Hd Ed. apply E. apply in_map_iff; eauto. }
    rewrite !F; auto.
Qed.

(** on every other config it changes nothing *)
Theorem C43_exchange_ema_other : forall T (model : string -> result T) id ks k,
  id <> "sd1-ldm" -> exchange_ema id ks model k = model k.
Proof.
  intros T model id ks k N. unfold exchange_ema, ema_source, to_ema_key.
  destruct (String.eqb_spec id "sd1-ldm") as [E|_]; [congruence|].
  destruct (existsb (String.eqb k) ks) eqn:X; auto.
  destruct (find (fun k0 => String.eqb k0 k) ks) as [k'|] eqn:F; auto.
  apply find_some in F as (_ & F). apply String.eqb_eq in F; congruence.
Qed.

Example C43_applies :
  existsb (String.eqb "model.diffusion_model.out.0.weight") (component sd1_ldm "diffuser") = true /\
  ema_name "model.diffusion_model.out.0.weight" = "model_ema.diffusion_modelout0weight" /\
  exchange_ema "sd1-ldm" (keys sd1_ldm) (fun k => Ok k) "model_ema.diffusion_modelout0weight" = Ok "model.diffusion_model.out.0.weight".
Proof. split; [|split]; vm_compute; reflexivity. Qed.

(** ** C45 *)

Lemma s2l_app : forall a b, s2l (a ++ b)%string = s2l a ++ s2l b.
Proof. induction a; intros b; simpl; [reflexivity|]. unfold s2l in *; simpl; rewrite IHa; reflexivity. Qed.
Lemma flux_strip : forall k, l2s (skipn (length (s2l "model.diffusion_model.")) (s2l ("model.diffusion_model." ++ k)%string)) = k.
Proof. intros k. rewrite s2l_app, skipn_app, skipn_all, Nat.sub_diag. apply l2s_s2l. Qed.
Lemma append_nil : forall b, (b ++ "")%string = b.
Proof. induction b; simpl; congruence. Qed.
Lemma cat2 : forall a b, cat [a; b] = (a ++ b)%string.
Proof. intros a b; unfold cat, fold_right. rewrite append_nil; reflexivity. Qed.
Lemma prefixed_true : forall p k, prefixed p k = true -> exists x, k = (p ++ x)%string.
Proof.
  intros p k H; unfold prefixed in H. apply starts_with_spec in H as (r & E).
  exists (l2s r). apply s2l_inj. rewrite s2l_app, s2l_l2s; auto.
Qed.
Lemma prefixed_app : forall p x, prefixed p (p ++ x)%string = true.
Proof. intros p x. unfold prefixed. apply starts_with_spec. exists (s2l x). apply s2l_app. Qed.

(** For every key, the diffuser goes to the full layout and back unchanged; the
    full model comes back with its diffuser unchanged and nothing else. *)
Theorem C45_flux : forall T (sd : string -> result T),
  (forall k, flux_to_backbone (flux_to_full sd) k = sd k) /\
  (forall x, flux_to_full (flux_to_backbone sd) ("model.diffusion_model." ++ x)%string = sd ("model.diffusion_model." ++ x)%string) /\
  (forall k, (forall x, k <> ("model.diffusion_model." ++ x)%string) ->
     flux_to_full (flux_to_backbone sd) k = Err (StateDictKeyError k)).
Proof.
  intros T sd. Opaque s2l append. split; [|split].
  - intros k. unfold flux_to_backbone, flux_to_full. rewrite cat2, prefixed_app. cbn [negb]. rewrite flux_strip; auto.
  - intros x. unfold flux_to_backbone, flux_to_full. rewrite prefixed_app. cbn [negb]. rewrite flux_strip, cat2; auto.
  - intros k N. unfold flux_to_full. destruct (prefixed "model.diffusion_model." k) eqn:P; [|reflexivity].
    apply prefixed_true in P as (x & E). exfalso; apply (N x E).
  Transparent s2l append.
Qed.

(** The keys of the two builtin configs correspond: the diffuser-only keys are
    the full config's diffuser keys without the prefix, in the same shapes. *)
Definition flux_check (full diff : list key_entry) : bool :=
  let ifull := index ke_key full in
  let idiff := names (map (fun e => ("model.diffusion_model." ++ ke_key e)%string) diff) in
  forallb (fun e => match lookup ifull ("model.diffusion_model." ++ ke_key e)%string with
                    | Some f => shape_eqb (ke_shape f) (ke_shape e) | None => false end) diff &&
  forallb (fun f => negb (prefixed "model.diffusion_model." (ke_key f)) || is_in idiff (ke_key f)) full.
Lemma flux_checked : flux_check (entries flux) (entries flux_diffuser) = true.
Proof. vm_cast_no_check (eq_refl true). Qed.
Lemma flux_check_spec : forall full diff, flux_check full diff = true ->
  (forall e, In e diff -> exists f, In f full /\ ke_key f = ("model.diffusion_model." ++ ke_key e)%string /\ ke_shape f = ke_shape e) /\
  (forall f x, In f full -> ke_key f = ("model.diffusion_model." ++ x)%string -> exists e, In e diff /\ ke_key e = x).
Proof.
  intros full diff H; unfold flux_check in H. cbv zeta in H. apply andb_prop in H as (H1 & H2). split.
  - intros e He. pose proof (proj1 (forallb_forall _ _) H1 e He) as C. cbv beta in C. rewrite lookup_index in C.
    destruct (find _ full) as [f|] eqn:F; [|discriminate]. apply find_some in F as (Hf & E).
    apply String.eqb_eq in E. apply shape_eqb_eq in C. exists f; auto.
  - intros f x Hf E. pose proof (proj1 (forallb_forall _ _) H2 f Hf) as C. cbv beta in C.
    rewrite E, prefixed_app in C. cbn [negb orb] in C. apply is_in_names in C.
    apply in_map_iff in C as (e & C & He). exists e; split; auto.
    rewrite <- (flux_strip x), <- C, flux_strip; auto.
Qed.

Theorem C45_flux_keys : forall A (full_sd diff_sd : state_dict A),
  (follows flux full_sd -> forall e, In e (entries flux_diffuser) ->
     exists t, flux_to_backbone full_sd (ke_key e) = Ok t /\ t_shape t = ke_shape e) /\
  (follows flux_diffuser diff_sd -> forall f x, In f (entries flux) -> ke_key f = ("model.diffusion_model." ++ x)%string ->
     exists t, flux_to_full diff_sd (ke_key f) = Ok t /\ t_shape t = ke_shape f).
Proof.
  intros A full_sd diff_sd. destruct (flux_check_spec _ _ flux_checked) as (H1 & H2).
  assert (ND : nodupb (keys flux) = true) by (vm_cast_no_check (eq_refl true)). apply nodupb_NoDup in ND.
  split.
  - intros (Fo & _) e He. destruct (H1 e He) as (f & Hf & E & S). destruct (Fo f Hf) as (t & Ht & St).
    exists t. unfold flux_to_backbone. rewrite cat2, <- E. split; [exact Ht|congruence].
  - intros (Fo & _) f x Hf E. destruct (H2 f x Hf E) as (e & He & Ee). destruct (Fo e He) as (t & Ht & St).
    exists t. unfold flux_to_full. rewrite E, prefixed_app. cbn [negb]. rewrite flux_strip, <- Ee. split; [exact Ht|].
    destruct (H1 e He) as (f' & Hf' & E' & S'). rewrite Ee, <- E in E'.
    assert (f' = f) by (apply (NoDup_map_inj ke_key (entries flux)); auto).
    congruence.
Qed.

Example C45_applies : follows flux_diffuser (zeros flux_diffuser) /\ length (entries flux_diffuser) = 780 /\
  is_ok (flux_to_full (zeros flux_diffuser) "model.diffusion_model.img_in.weight") = true.
Proof.
  split; [apply zeros_follows; vm_cast_no_check (eq_refl true)|].
  split; [vm_cast_no_check (eq_refl 780) | vm_cast_no_check (eq_refl true)].
Qed.
Print Assumptions C42_blocks.
Print Assumptions C43_exchange_ema.
Print Assumptions C43_exchange_ema_other.
Print Assumptions C45_flux.
Print Assumptions C45_flux_keys.
