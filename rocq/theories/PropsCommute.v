(** C105: converting and merging can be exchanged *)
From Coq Require Import String Ascii List Bool Arith NArith Reals Lra.
From Verif Require Import Base PyStr ModelKeys ModelKeyConv ModelNum ModelLora SpecCommute.
Import ListNotations.
Open Scope string_scope.
Open Scope list_scope.
Open Scope nat_scope.

(** the conversions between layouts of an architecture, and the exchange of EMA weights *)
Inductive conversion :=
| Sd1Kohya | SdxlKohya | SdxlDiffusers | FluxToBackbone | FluxToFull
| ExchangeEma (config : string) (keys : list string).
Definition conv (c : conversion) {A} : state_dict A -> state_dict A :=
  match c with
  | Sd1Kohya => convert_sd1_kohya
  | SdxlKohya => convert_sdxl_kohya
  | SdxlDiffusers => convert_sdxl_diffusers
  | FluxToBackbone => flux_to_backbone
  | FluxToFull => flux_to_full
  | ExchangeEma config keys => exchange_ema config keys
  end.
Definition convs (cs : list conversion) {A} (sd : state_dict A) : state_dict A := fold_left (fun sd c => conv c sd) cs sd.

Opaque sd1_map_layer sdxl_map_layer unet_map sdxl_unet_map unet_source vae_source sdxl_clip_g_key krep prefixed suffixed ema_source
  py_split py_join s2l l2s cat.

Section Related.
  Context {A B I : Type} (f : list A -> B) (is : list I).

  (** [t] is the merge of the tensors [h i] *)
  Definition trel (t : tensor B) (h : I -> tensor A) : Prop :=
    (forall i, In i is -> t_shape (h i) = t_shape t) /\ forall x, t_at t x = f (map (fun i => t_at (h i) x) is).
  Definition rrel (r : result (tensor B)) (g : I -> result (tensor A)) : Prop :=
    (exists e, r = Err e /\ forall i, In i is -> g i = Err e) \/
    (exists t h, r = Ok t /\ (forall i, In i is -> g i = Ok (h i)) /\ trel t h).
  Definition srel (sd : state_dict B) (sds : I -> state_dict A) : Prop := forall k, rrel (sd k) (fun i => sds i k).

  Lemma rrel_ext : forall r g g', (forall i, In i is -> g i = g' i) -> rrel r g -> rrel r g'.
  Proof.
    intros r g g' E [(e & R & G)|(t & h & R & G & T)].
    - left. exists e. split; auto. intros i J. rewrite <- E by auto. auto.
    - right. exists t, h. split; auto. split; auto. intros i J. rewrite <- E by auto. auto.
  Qed.
  Lemma rrel_bind : forall r g k k', rrel r g -> (forall t h, trel t h -> rrel (k t) (fun i => k' i (h i))) ->
    rrel (bind r k) (fun i => bind (g i) (k' i)).
  Proof.
    intros r g k k' [(e & R & G)|(t & h & R & G & T)] K.
    - left. exists e. subst. split; auto. intros i J. rewrite G; auto.
    - subst. simpl. eapply rrel_ext; [|apply K; eauto]. intros i J. simpl. rewrite G; auto.
  Qed.
  Lemma rrel_ok : forall t h, trel t h -> rrel (Ok t) (fun i => Ok (h i)).
  Proof. intros t h T. right. exists t, h. auto. Qed.
  Lemma rrel_err : forall e, rrel (Err e) (fun _ => Err e).
  Proof. intros e. left. exists e. auto. Qed.

  (** one operation for both kinds of entries, that only looks at shapes *)
  Lemma trel_move : forall t h t' h' (sh : list N -> list N) (at_ : list N -> list N -> list N), trel t h ->
    t_shape t' = sh (t_shape t) -> (forall x, t_at t' x = t_at t (at_ (t_shape t) x)) ->
    (forall i, In i is -> t_shape (h' i) = sh (t_shape (h i))) ->
    (forall i x, In i is -> t_at (h' i) x = t_at (h i) (at_ (t_shape (h i)) x)) -> trel t' h'.
  Proof.
    intros t h t' h' sh at_ [S V] S1 V1 S2 V2. split.
    - intros i J. rewrite S1, S2, S by auto. auto.
    - intros x. rewrite V1, V. f_equal. apply map_ext_in. intros i J. rewrite V2, S by auto. auto.
  Qed.

  Lemma trel_reshape : forall t h, trel t h -> trel (reshape_for_sd t) (fun i => reshape_for_sd (h i)).
  Proof.
    intros t h T. eapply trel_move with
      (sh := fun s => if negb (length s =? 1) then s ++ [1%N; 1%N] else s)
      (at_ := fun s x => if negb (length s =? 1) then firstn (length s) x else x); [exact T| | | |];
      intros; unfold reshape_for_sd; destruct (negb _); auto.
  Qed.
  Lemma trel_transpose : forall t h, trel t h -> trel (transpose t) (fun i => transpose (h i)).
  Proof. intros t h T. eapply trel_move with (sh := @rev N) (at_ := fun s x => rev x); [exact T| | | |]; intros; auto. Qed.
  Lemma trel_2d : forall t h, trel t h -> trel (atleast_2d t) (fun i => atleast_2d (h i)).
  Proof.
    intros t h T. eapply trel_move with
      (sh := fun s => match s with [] => [1%N; 1%N] | [n] => [1%N; n] | _ => s end)
      (at_ := fun s x => match s with [] => [] | [n] => tl x | _ => x end); [exact T| | | |];
      intros; unfold atleast_2d;
      match goal with |- context [match t_shape ?u with _ => _ end] => destruct (t_shape u) as [|n [|m l]] eqn:E end; simpl; auto.
  Qed.
  Lemma rrel_rows : forall t h u h', trel t h -> trel u h' -> rrel (cat_rows t u) (fun i => cat_rows (h i) (h' i)).
  Proof.
    intros t h u h' [S V] [S' V']. unfold cat_rows. destruct (list_eq_dec N.eq_dec (tl (t_shape t)) (tl (t_shape u))) as [E|E].
    - eapply rrel_ext with (g := fun i => Ok _); [|apply rrel_ok with (h := fun i =>
        mk_tensor ((rows (h i) + rows (h' i))%N :: tl (t_shape (h i)))
          (fun idx => if (hd 0%N idx <? rows (h i))%N then t_at (h i) idx else t_at (h' i) ((hd 0%N idx - rows (h i))%N :: tl idx)))].
      + intros i J. simpl. rewrite S, S' by auto. destruct (list_eq_dec _ _ _); [auto|contradiction].
      + split.
        * intros i J. simpl. unfold rows. rewrite S, S' by auto. auto.
        * intros x. simpl. destruct (hd 0%N x <? rows t)%N eqn:L.
          -- rewrite V. f_equal. apply map_ext_in. intros i J. unfold rows in *. rewrite S by auto. rewrite L. auto.
          -- rewrite V'. f_equal. apply map_ext_in. intros i J. unfold rows in *. rewrite S by auto. rewrite L. auto.
    - eapply rrel_ext with (g := fun i => Err RuntimeError); [|apply rrel_err].
      intros i J. rewrite S, S' by auto. destruct (list_eq_dec _ _ _); [contradiction|auto].
  Qed.

  Lemma conv_vae_rel : forall sd sds k, srel sd sds -> rrel (convert_vae sd k) (fun i => convert_vae (sds i) k).
  Proof.
    intros sd sds k S. unfold convert_vae. destruct (vae_source k) as [key reshape].
    apply rrel_bind with (g := fun i => sds i key) (k' := fun _ res => Ok (if reshape then reshape_for_sd res else res)); [apply S|].
    intros t h T. apply rrel_ok with (h := fun i => if reshape then reshape_for_sd (h i) else h i).
    destruct reshape; auto using trel_reshape.
  Qed.
  Lemma vstack3_rel : forall sd sds key, srel sd sds ->
    rrel (let* parts := mapM (fun k => sd (key k)) ["q"; "k"; "v"] in vstack parts)
         (fun i => let* parts := mapM (fun k => sds i (key k)) ["q"; "k"; "v"] in vstack parts).
  Proof.
    intros sd sds key S. unfold mapM, vstack, vstack_go.
    destruct (S (key "q")) as [(e & R & G)|(tq & hq & R & G & Tq)]; rewrite R.
    { left. exists e. split; [reflexivity|]. intros i J. rewrite G by auto. reflexivity. }
    destruct (S (key "k")) as [(e & R' & G')|(tk & hk & R' & G' & Tk)]; rewrite R'.
    { left. exists e. split; [reflexivity|]. intros i J. rewrite G, G' by auto. reflexivity. }
    destruct (S (key "v")) as [(e & R'' & G'')|(tv & hv & R'' & G'' & Tv)]; rewrite R''.
    { left. exists e. split; [reflexivity|]. intros i J. rewrite G, G', G'' by auto. reflexivity. }
    cbn [bind].
    eapply rrel_ext with (g := fun i => let* ab := cat_rows (atleast_2d (hq i)) (atleast_2d (hk i)) in let* ab0 := cat_rows ab (atleast_2d (hv i)) in Ok ab0).
    { intros i J. rewrite G, G', G'' by auto. reflexivity. }
    apply rrel_bind with (k' := fun i ab => let* ab0 := cat_rows ab (atleast_2d (hv i)) in Ok ab0).
    { apply rrel_rows; apply trel_2d; auto. }
    intros t h T. apply rrel_bind with (g := fun i => cat_rows (h i) (atleast_2d (hv i))) (k' := fun i ab => Ok ab).
    { apply rrel_rows; auto using trel_2d. }
    intros t' h' T'. apply rrel_ok; auto.
  Qed.
  Lemma conv_clip_g_rel : forall sd sds k, srel sd sds -> rrel (convert_sdxl_clip_g sd k) (fun i => convert_sdxl_clip_g (sds i) k).
  Proof.
    intros sd sds k S. unfold convert_sdxl_clip_g.
    apply rrel_bind with (k' := fun _ res => Ok (if suffixed "text_projection" k then transpose res else res)).
    - destruct (_ || _).
      + apply vstack3_rel with (key := fun q => cat [krep ".in_proj_bias" "" (krep ".in_proj_weight" "" (sdxl_clip_g_key k)); "."; q; "_proj.";
          if suffixed "bias" (sdxl_clip_g_key k) then "bias" else "weight"]). auto.
      + apply S.
    - intros t h T. apply rrel_ok with (h := fun i => if suffixed "text_projection" k then transpose (h i) else h i).
      destruct (suffixed _ _); auto using trel_transpose.
  Qed.

  Lemma conv_rel : forall c sd sds, srel sd sds -> srel (conv c sd) (fun i => conv c (sds i)).
  Proof.
    intros c sd sds S k. destruct c; unfold conv.
    - unfold convert_sd1_kohya, sd1_convert_unet, sd1_convert_clip_l. destruct (prefixed "model.diffusion_model." k); [apply S|].
      destruct (prefixed "cond_stage_model." k); [apply S|].
      destruct (prefixed "first_stage_model." k); [apply conv_vae_rel; auto|apply S].
    - unfold convert_sdxl_kohya. destruct (prefixed "model.diffusion_model." k); [apply S|].
      destruct (prefixed "conditioner.embedders.0." k); [apply S|].
      destruct (prefixed "conditioner.embedders.1." k); [apply conv_clip_g_rel; auto|].
      destruct (prefixed "first_stage_model." k); [apply conv_vae_rel; auto|apply S].
    - unfold convert_sdxl_diffusers. destruct (negb (prefixed "model.diffusion_model" k)); [apply rrel_err|apply S].
    - unfold flux_to_backbone. apply S.
    - unfold flux_to_full. destruct (negb (prefixed "model.diffusion_model." k)); [apply rrel_err|apply S].
    - unfold exchange_ema. apply S.
  Qed.
  Lemma convs_rel : forall cs sd sds, srel sd sds -> srel (convs cs sd) (fun i => convs cs (sds i)).
  Proof.
    unfold convs. induction cs as [|c cs IH]; intros sd sds S; simpl; auto.
    apply IH with (sds := fun i => conv c (sds i)). apply conv_rel; auto.
  Qed.
End Related.

Section Merged.
  Context {A B : Type} (f : list A -> B).

  Lemma forallb_shape : forall (t : tensor A) (ts : list (tensor A)), (forall u, In u ts -> t_shape u = t_shape t) ->
    forallb (fun u => if list_eq_dec N.eq_dec (t_shape u) (t_shape t) then true else false) ts = true.
  Proof. intros t ts H. apply forallb_forall. intros u J. destruct (list_eq_dec N.eq_dec (t_shape u) (t_shape t)); auto. Qed.

  Lemma merged_rel : forall sds, sds <> [] -> alike sds -> srel f sds (merged f sds) (fun sd => sd).
  Proof.
    intros sds N L k. unfold merged. destruct (L k) as [(e & E)|(s & E)].
    - left. exists e. split; auto. destruct sds as [|sd sds]; [contradiction|]. simpl. rewrite E by (left; auto). auto.
    - assert (exists h, forall sd, In sd sds -> sd k = Ok (h sd) /\ t_shape (h sd) = s) as (h & H).
      { destruct sds as [|sd0 sds]; [contradiction|]. destruct (E sd0 (or_introl eq_refl)) as (t0 & E0 & _).
        exists (fun sd => match sd k with Ok t => t | Err _ => t0 end). intros sd J. destruct (E sd J) as (t & -> & S). auto. }
      assert (mapM (fun sd => sd k) sds = Ok (map h sds)) as M.
      { apply mapM_Ok_Forall2. clear - H. induction sds as [|sd sds IH]; simpl; constructor.
        - apply H. left; auto.
        - apply IH. intros sd' J. apply H. right; auto. }
      rewrite M. cbn [bind]. unfold entrywise. destruct sds as [|sd0 sds]; [contradiction|].
      change (map h (sd0 :: sds)) with (h sd0 :: map h sds). cbv iota.
      rewrite forallb_shape.
      2:{ intros u J. change (In u (map h (sd0 :: sds))) in J. apply in_map_iff in J as (sd & <- & J). rewrite (proj2 (H sd J)), (proj2 (H sd0 (or_introl eq_refl))). auto. }
      right. eexists. exists h. split; [reflexivity|]. split; [intros i J; apply H; auto|]. split.
      + intros i J. simpl. rewrite (proj2 (H i J)), (proj2 (H sd0 (or_introl eq_refl))). auto.
      + intros x. simpl. f_equal. f_equal. rewrite map_map. auto.
  Qed.

  Lemma rel_merged : forall I (is : list I) sd (sds : I -> state_dict A) k, is <> [] -> srel f is sd sds -> same (sd k) (merged f (map sds is) k).
  Proof.
    intros I is sd sds k N S. unfold merged. destruct (S k) as [(e & R & G)|(t & h & R & G & T)].
    - rewrite R. destruct is as [|i is]; [contradiction|]. simpl. rewrite (G i) by (left; auto). simpl. auto.
    - rewrite R. assert (mapM (fun sd0 => sd0 k) (map sds is) = Ok (map h is)) as M.
      { apply mapM_Ok_Forall2. clear - G. induction is as [|i is IH]; simpl; constructor.
        - apply G. left; auto.
        - apply IH. intros j J. apply G. right; auto. }
      rewrite M. cbn [bind]. unfold entrywise. destruct is as [|i0 is]; [contradiction|].
      change (map h (i0 :: is)) with (h i0 :: map h is). cbv iota.
      destruct T as (T1 & T2). rewrite forallb_shape.
      2:{ intros u J. change (In u (map h (i0 :: is))) in J. apply in_map_iff in J as (i & <- & J). rewrite !T1; auto. left; auto. }
      simpl. split; [rewrite T1; auto; left; auto|]. intros x. rewrite T2. simpl. rewrite map_map. auto.
  Qed.
  Lemma rel_alike : forall I (is : list I) sd (sds : I -> state_dict A), srel f is sd sds -> alike (map sds is).
  Proof.
    intros I is sd sds S k. destruct (S k) as [(e & R & G)|(t & h & R & G & T1 & T2)].
    - left. exists e. intros sd' J. apply in_map_iff in J as (i & <- & J). auto.
    - right. exists (t_shape t). intros sd' J. apply in_map_iff in J as (i & <- & J). eauto.
  Qed.

  (** Merging models entry by entry and then converting gives, under every key, what converting each model and then
      merging gives, exceptions included; and the converted models fit together again. *)
  Theorem C105_convert_merged : forall cs sds k, sds <> [] -> alike sds ->
    same (convs cs (merged f sds) k) (merged f (map (convs cs) sds) k) /\ alike (map (convs cs) sds).
  Proof.
    intros cs sds k N L. pose proof (convs_rel f sds cs _ _ (merged_rel sds N L)) as S. split.
    - apply rel_merged with (sds := fun sd => convs cs sd); auto.
    - eapply rel_alike. exact S.
  Qed.
End Merged.

(** ** a case: two models with the same three parts of an attention weight, kohya layout *)
Definition ex_key := "conditioner.embedders.1.model.transformer.resblocks.0.attn.in_proj_weight".
Definition ex_part (q : string) := cat ["te2.text_model.encoder.layers.0.self_attn."; q; "_proj.weight"].
Definition ex_sd {A} (q k v : A) : state_dict A := fun key =>
  if String.eqb key (ex_part "q") then Ok (mk_tensor [1%N; 1%N] (fun _ => q))
  else if String.eqb key (ex_part "k") then Ok (mk_tensor [1%N; 1%N] (fun _ => k))
  else if String.eqb key (ex_part "v") then Ok (mk_tensor [1%N; 1%N] (fun _ => v))
  else Err KeyError.
Transparent krep prefixed suffixed sdxl_clip_g_key py_split py_join s2l l2s cat.
Definition entries {A} (r : result (tensor A)) : result (list N * list A) :=
  let* t := r in Ok (t_shape t, map (fun i => t_at t [i; 0%N]) [0; 1; 2]%N).

Lemma ex_alike : forall A (a b c a' b' c' : A), alike [ex_sd a b c; ex_sd a' b' c'].
Proof.
  intros A a b c a' b' c' k.
  destruct (String.eqb k (ex_part "q")) eqn:Q; [|destruct (String.eqb k (ex_part "k")) eqn:K; [|destruct (String.eqb k (ex_part "v")) eqn:V]].
  1-3: right; exists [1%N; 1%N]; intros sd [<-|[<-|[]]]; eexists; unfold ex_sd; rewrite ?Q, ?K, ?V; split; reflexivity.
  left. exists KeyError. intros sd [<-|[<-|[]]]; unfold ex_sd; rewrite Q, K, V; reflexivity.
Qed.

Example C105_example :
  alike [ex_sd 1 2 3; ex_sd 10 20 30] /\
  entries (convs [SdxlKohya] (merged (fun l => fold_right plus 0 l) [ex_sd 1 2 3; ex_sd 10 20 30]) ex_key) = Ok ([3%N; 1%N], [11; 22; 33]) /\
  entries (merged (fun l => fold_right plus 0 l) (map (convs [SdxlKohya]) [ex_sd 1 2 3; ex_sd 10 20 30]) ex_key) = Ok ([3%N; 1%N], [11; 22; 33]).
Proof. split; [apply ex_alike|]. split; vm_compute; reflexivity. Qed.

(** ** where the order matters *)
Open Scope R_scope.

(** Low-rank models are not converted by moving entries: the average of two of them, converted, is not the average of
    the converted ones. *)
Definition ex_lora (x : R) : state_dict R := fun key =>
  if String.eqb key "m.alpha" then Ok (mk_tensor [] (fun _ => 1))
  else if String.eqb key "m.lora_down.weight" then Ok (mk_tensor [1%N; 1%N] (fun _ => x))
  else if String.eqb key "m.lora_up.weight" then Ok (mk_tensor [1%N; 1%N] (fun _ => x))
  else Err KeyError.
Definition average (l : list R) : R := rsum l / INR (length l).
Theorem C105_lora_refuted : ~ forall sds k, sds <> [] -> alike sds ->
  same (compose_lora (merged average sds) k) (merged average (map compose_lora sds) k).
Proof.
  intros H. specialize (H [ex_lora 1; ex_lora 3] "m").
  assert (alike [ex_lora 1; ex_lora 3]) as L.
  { intros k. destruct (String.eqb k "m.alpha") eqn:Q; [|destruct (String.eqb k "m.lora_down.weight") eqn:K; [|destruct (String.eqb k "m.lora_up.weight") eqn:V]].
    - right. exists []. intros sd [<-|[<-|[]]]; eexists; unfold ex_lora; rewrite Q; split; reflexivity.
    - right. exists [1%N; 1%N]. intros sd [<-|[<-|[]]]; eexists; unfold ex_lora; rewrite Q, K; split; reflexivity.
    - right. exists [1%N; 1%N]. intros sd [<-|[<-|[]]]; eexists; unfold ex_lora; rewrite Q, K, V; split; reflexivity.
    - left. exists KeyError. intros sd [<-|[<-|[]]]; unfold ex_lora; rewrite Q, K, V; reflexivity. }
  specialize (H ltac:(discriminate) L). destruct H as (_ & H). specialize (H [0%N; 0%N]).
  cbv -[Rplus Rmult Rdiv Rinv IZR Rminus Ropp] in H. lra.
Qed.

(** Nor may the method look at whole tensors: taking the part of b that is orthogonal to a. *)
Definition flat (t : tensor R) : list R :=
  match t_shape t with
  | [n; m] => flat_map (fun i => map (fun j => t_at t [i; j]) (indices m)) (indices n)
  | _ => []
  end.
Definition perpendicular_tensor (ts : list (tensor R)) : result (tensor R) :=
  match ts with
  | [a; b] => Ok (mk_tensor (t_shape a) (fun idx =>
      match t_shape a, idx with
      | [_; m], [i; j] => nth (N.to_nat (i * m + j)) (perpendicular_component (flat a) (flat b)) 0
      | _, _ => 0
      end))
  | _ => Err RuntimeError
  end.
Definition merged_by (g : list (tensor R) -> result (tensor R)) (sds : list (state_dict R)) : state_dict R := fun k =>
  let* ts := mapM (fun sd => sd k) sds in g ts.
Lemma ex_convs : forall A (sd : state_dict A), convs [SdxlKohya] sd ex_key =
  (let* r := (let* q := sd (ex_part "q") in let* k := sd (ex_part "k") in let* v := sd (ex_part "v") in
     let* qk := cat_rows (atleast_2d q) (atleast_2d k) in let* t := cat_rows qk (atleast_2d v) in Ok t) in Ok r).
Proof.
  intros A sd. unfold convs, conv, fold_left, convert_sdxl_kohya.
  replace (prefixed "model.diffusion_model." ex_key) with false by (vm_compute; reflexivity).
  replace (prefixed "conditioner.embedders.0." ex_key) with false by (vm_compute; reflexivity).
  replace (prefixed "conditioner.embedders.1." ex_key) with true by (vm_compute; reflexivity).
  unfold convert_sdxl_clip_g. replace (sdxl_clip_g_key ex_key) with "te2.text_model.encoder.layers.0.self_attn.in_proj_weight" by (vm_compute; reflexivity).
  replace (suffixed ".in_proj_weight" _ || _)%bool with true by (vm_compute; reflexivity).
  replace (suffixed "bias" _) with false by (vm_compute; reflexivity).
  replace (suffixed "text_projection" _) with false by (vm_compute; reflexivity).
  replace (krep ".in_proj_bias" "" _) with "te2.text_model.encoder.layers.0.self_attn" by (vm_compute; reflexivity).
  unfold mapM. change (cat ["te2.text_model.encoder.layers.0.self_attn"; "."; "q"; "_proj."; "weight"]) with (ex_part "q").
  change (cat ["te2.text_model.encoder.layers.0.self_attn"; "."; "k"; "_proj."; "weight"]) with (ex_part "k").
  change (cat ["te2.text_model.encoder.layers.0.self_attn"; "."; "v"; "_proj."; "weight"]) with (ex_part "v").
  destruct (sd (ex_part "q")); [|reflexivity]. destruct (sd (ex_part "k")); [|reflexivity]. destruct (sd (ex_part "v")); reflexivity.
Qed.
Lemma ex_parts : forall A (a b c : A), ex_sd a b c (ex_part "q") = Ok (mk_tensor [1%N; 1%N] (fun _ => a)) /\
  ex_sd a b c (ex_part "k") = Ok (mk_tensor [1%N; 1%N] (fun _ => b)) /\ ex_sd a b c (ex_part "v") = Ok (mk_tensor [1%N; 1%N] (fun _ => c)).
Proof. intros. repeat split; vm_compute; reflexivity. Qed.
Theorem C105_whole_tensors_refuted : ~ forall a b k, alike [a; b] ->
  same (convs [SdxlKohya] (merged_by perpendicular_tensor [a; b]) k) (merged_by perpendicular_tensor (map (convs [SdxlKohya]) [a; b]) k).
Proof.
  intros H. specialize (H (ex_sd 1 1 1) (ex_sd 1 2 3) ex_key (ex_alike R 1 1 1 1 2 3)).
  unfold merged_by in H. cbn [map mapM] in H. rewrite !ex_convs in H. destruct (ex_parts R 1 1 1) as (E1 & E2 & E3). destruct (ex_parts R 1 2 3) as (E4 & E5 & E6).
  rewrite E1, E2, E3, E4, E5, E6 in H. clear E1 E2 E3 E4 E5 E6.
  destruct H as (_ & H). specialize (H [0%N; 0%N]).
  cbv -[Rplus Rmult Rdiv Rinv IZR Rminus Ropp sqrt reqb] in H.
  replace (1 * 1 + (1 * 1 + (1 * 1 + 0))) with 3 in H by ring. replace (1 * 1 + 0) with 1 in H by ring.
  assert (reqb (sqrt 1) 0 = false) as Q1 by (unfold reqb; destruct (Req_EM_T (sqrt 1) 0) as [Z|]; auto; rewrite sqrt_1 in Z; lra).
  assert (sqrt 3 <> 0) as N3 by (intros Z; apply sqrt_eq_0 in Z; lra).
  assert (reqb (sqrt 3) 0 = false) as Q3 by (unfold reqb; destruct (Req_EM_T (sqrt 3) 0); auto; contradiction).
  rewrite Q1, Q3, sqrt_1 in H.
  assert (forall x, x / sqrt 3 = x * / sqrt 3) as D by (intros; reflexivity).
  assert (/ sqrt 3 * / sqrt 3 = / 3) as I3.
  { rewrite <- Rinv_mult, sqrt_sqrt by lra. reflexivity. }
  rewrite !D in H. set (s := / sqrt 3) in *. nra.
Qed.

Print Assumptions C105_convert_merged.
Print Assumptions C105_lora_refuted.
Print Assumptions C105_whole_tensors_refuted.
