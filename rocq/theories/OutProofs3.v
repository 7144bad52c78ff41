(** Reading a finished file back, and the size of the reserved header. *)
From Coq Require Import String Ascii List Bool Arith NArith Lia Permutation.
From Verif Require Import Base Dec Json JsonProofs PyStr ModelStream InProofs OutProofs OutProofs2.
Import ListNotations.

Definition meta_entry (recipe : option string) : string * json :=
  ("__metadata__"%string, JObj (match recipe with Some r => [("mecha_recipe"%string, JStr r)] | None => [] end)).

Lemma meta_entry_hd : forall recipe, hd ("", JStr "")%string (base_header recipe) = meta_entry recipe.
Proof. reflexivity. Qed.

Lemma get_nums_map : forall l, get_nums (map JNum l) = Ok l.
Proof. induction l as [|x l IH]; simpl; auto. rewrite IH; auto. Qed.

Lemma dtype_of_name_name : forall d, dtype_of_name (dtype_name d) = Some d.
Proof. destruct d; reflexivity. Qed.

Lemma entry_info_entry : forall d sh a b, entry_info (entry_json d sh a b) = Ok (d, sh, N.of_nat a, N.of_nat b).
Proof.
  intros. unfold entry_info, entry_json. cbn [dget].
  replace (String.eqb "data_offsets" "dtype") with false by reflexivity.
  replace (String.eqb "data_offsets" "shape") with false by reflexivity.
  replace (String.eqb "data_offsets" "data_offsets") with true by reflexivity.
  replace (String.eqb "dtype" "dtype") with true by reflexivity.
  replace (String.eqb "shape" "dtype") with false by reflexivity.
  replace (String.eqb "shape" "shape") with true by reflexivity.
  rewrite dtype_of_name_name, get_nums_map. reflexivity.
Qed.

Lemma sort_key_entry : forall d sh a b, sort_key (entry_json d sh a b) = Ok (N.of_nat a).
Proof. reflexivity. Qed.

Lemma sort_key_meta : forall recipe, sort_key (snd (meta_entry recipe)) = Ok 0%N.
Proof. intros [r|]; reflexivity. Qed.

Lemma sort_header_ok : forall h, Forall (fun kv => exists n, sort_key (snd kv) = Ok n) h ->
  exists h', sort_header h = Ok h'.
Proof.
  intros h H. unfold sort_header.
  assert (exists keyed, mapM (fun kv => let* n := sort_key (snd kv) in Ok (n, kv)) h = Ok keyed) as (keyed & ->).
  { induction H as [|x l (n & Hn) _ (keyed & IH)]; simpl; [eauto|].
    rewrite Hn; simpl. rewrite IH; simpl. eauto. }
  simpl. eauto.
Qed.

Lemma forallb_ascii : forall l, (forall x, In x l -> (N_of_ascii x < 128)%N) ->
  forallb (fun c => (N_of_ascii c <? 128)%N) l = true.
Proof. intros l H. apply forallb_forall. intros x Hx. apply N.ltb_lt; auto. Qed.

Lemma fread_prefix : forall cap a b, length a <= cap -> fread cap (a ++ b) 0 (length a) = a.
Proof.
  intros. unfold fread. simpl. rewrite Nat.min_l by lia. apply firstn_app_exact.
Qed.

Lemma fread_mid : forall cap a b c n, n = length b -> length b <= cap -> fread cap (a ++ b ++ c) (length a) n = b.
Proof.
  intros. subst. unfold fread. rewrite Nat.min_l by lia. rewrite skipn_app_exact. apply firstn_app_exact.
Qed.

Lemma read_final : forall cap size8 text overhead D h n,
  text = json_dumps (JObj h) -> wfj (JObj h) ->
  n = length text + overhead -> pack_Q (N.of_nat n) = Ok size8 ->
  8 <= cap -> n <= cap ->
  read_header cap (final_file size8 text overhead D) =
    (let* h' := sort_header h in Ok (n, h')).
Proof.
  intros cap size8 text overhead D h n Ht Hwf Hn Hp H8 Hcap.
  destruct (unpack_pack _ _ Hp) as (Hu & L8).
  unfold read_header, final_file.
  assert (E1: fread cap (size8 ++ text ++ repeat " "%char overhead ++ D) 0 8 = size8).
  { rewrite <- L8 at 1. apply fread_prefix. lia. }
  rewrite E1, Hu. cbn [bind]. rewrite Nat2N.id.
  assert (E2: fread cap (size8 ++ text ++ repeat " "%char overhead ++ D) 8 n = text ++ repeat " "%char overhead).
  { rewrite <- L8. rewrite (app_assoc text). apply fread_mid; rewrite app_length, repeat_length; auto. lia. }
  rewrite E2. unfold decode_utf8. rewrite forallb_ascii.
  2:{ intros x Hx. apply in_app_or in Hx as [Hx|Hx].
      - subst text. eapply json_dumps_ascii; eauto.
      - apply repeat_spec in Hx. subst; reflexivity. }
  cbn [bind].
  destruct (json_obj_shape h) as (m & Em).
  rewrite Ht, Em. rewrite strip_id_spaces by reflexivity. rewrite <- Em.
  pose proof (json_loads_dumps (JObj h) 0 Hwf) as Hl. simpl repeat in Hl. rewrite app_nil_r in Hl.
  rewrite Hl. reflexivity.
Qed.

Lemma permutation_in_layout : forall H segs, Permutation H (layout 0 segs) ->
  forall k t, In (k, t) segs ->
  exists x y, data_of segs = x ++ t_bytes t ++ y /\
    In (k, Entry (t_dtype t) (t_shape t) (length x) (length x + length (t_bytes t))) H.
Proof.
  intros H segs HP k t Hin. destruct (layout_in segs 0 k t Hin) as (x & y & e & E1 & E2 & ->).
  exists x, y. split; auto. eapply Permutation_in; [symmetry; exact HP|]. exact E2.
Qed.

(** every entry of the layout comes from one of the tensors *)
Lemma layout_from : forall l off k e, In (k, e) (layout off l) ->
  exists t x, In (k, t) l /\ e_dtype e = t_dtype t /\ e_shape e = t_shape t /\
    e_start e = off + x /\ e_stop e = off + x + length (t_bytes t) /\ x + length (t_bytes t) <= length (data_of l).
Proof.
  induction l as [|[k' t'] l IH]; intros off k e H; simpl in H; [tauto|].
  destruct H as [E|H].
  - inversion E; subst. exists t', 0. simpl. repeat split; auto.
    all: unfold data_of; simpl; rewrite ?app_length; lia.
  - destruct (IH _ _ _ H) as (t & x & H1 & H2 & H3 & H4 & H5 & H6).
    exists t, (length (t_bytes t') + x). simpl. repeat split; auto; try lia.
    unfold data_of in *; simpl. rewrite app_length. lia.
Qed.

(** ** the reserved header is large enough *)
Definition sumN (l : list N) : N := fold_right N.add 0%N l.

Inductive desc : list N -> Prop :=
| desc_nil : desc []
| desc_cons : forall x l, (forall y, In y l -> (y <= x)%N) -> desc l -> desc (x :: l).

Lemma desc_prefix_max : forall L S R, desc L -> Permutation (S ++ R) L ->
  (sumN S <= sumN (firstn (length S) L))%N.
Proof.
  induction L as [|x L IH]; intros S R HL HP.
  - apply Permutation_sym, Permutation_nil in HP. apply app_eq_nil in HP as [-> ->]. simpl; lia.
  - destruct S as [|y S]; [simpl; lia|].
    inversion HL as [|? ? Hx HL']; subst.
    destruct (in_dec N.eq_dec x (y :: S)) as [Hin|Hin].
    + apply in_split in Hin as (a & b & Eab). rewrite Eab in *.
      assert (HP': Permutation ((a ++ b) ++ R) L).
      { apply (Permutation_cons_inv (a := x)). rewrite <- HP. rewrite <- !app_assoc. simpl.
        rewrite <- Permutation_middle. auto. }
      specialize (IH _ _ HL' HP').
      rewrite !app_length in *. cbn [length]. rewrite Nat.add_succ_r. cbn [firstn sumN fold_right].
      assert (Es: sumN (a ++ x :: b) = (x + sumN (a ++ b))%N).
      { clear. unfold sumN. induction a as [|z a IHa]; cbn [app fold_right]; [reflexivity|]. rewrite IHa. lia. }
      fold (sumN (firstn (length a + length b) L)). rewrite Es. lia.
    + assert (Hy : In y L).
      { assert (In y (x :: L)) as [E|]; auto. { eapply Permutation_in; [exact HP|]. simpl; auto. }
        subst. exfalso; apply Hin; simpl; auto. }
      assert (HP': exists R', Permutation (S ++ R') L).
      { assert (Hx' : In x R).
        { assert (In x ((y :: S) ++ R)) as H. { eapply Permutation_in; [symmetry; exact HP|]. simpl; auto. }
          apply in_app_or in H as [H|H]; tauto. }
        apply in_split in Hx' as (r1 & r2 & ->). exists (y :: r1 ++ r2).
        apply (Permutation_cons_inv (a := x)). rewrite <- HP. simpl.
        rewrite <- Permutation_middle.
        rewrite <- (Permutation_middle r1 r2 x). rewrite <- Permutation_middle. apply perm_swap. }
      destruct HP' as (R' & HP').
      specialize (IH _ _ HL' HP'). specialize (Hx _ Hy).
      cbn [length firstn sumN fold_right].
      change (fold_right N.add 0%N S) with (sumN S). fold (sumN (firstn (length S) L)). lia.
Qed.

Lemma insert_desc_perm : forall x l, Permutation (x :: l) (insert_desc x l).
Proof.
  induction l as [|y l IH]; simpl; auto.
  destruct (decl_size y <=? decl_size x)%N; auto. rewrite perm_swap. constructor; auto.
Qed.
Lemma sort_desc_perm : forall l, Permutation l (sort_desc l).
Proof. induction l as [|x l IH]; simpl; auto. rewrite <- insert_desc_perm. constructor; auto. Qed.

Lemma insert_desc_desc : forall x l, desc (map decl_size l) -> desc (map decl_size (insert_desc x l)).
Proof.
  induction l as [|y l IH]; intros H; simpl.
  - constructor; [simpl; tauto|constructor].
  - destruct (N.leb_spec (decl_size y) (decl_size x)) as [Hle|Hgt].
    + simpl in *. constructor; auto. inversion H; subst. simpl. intros z [<-|Hz]; auto.
      specialize (H2 _ Hz). lia.
    + simpl in *. inversion H; subst. constructor; auto.
      intros z Hz. apply (Permutation_in (l' := decl_size x :: map decl_size l)) in Hz.
      * destruct Hz as [<-|Hz]; [lia|auto].
      * change (decl_size x :: map decl_size l) with (map decl_size (x :: l)).
        apply Permutation_map. symmetry. apply insert_desc_perm.
Qed.
Lemma sort_desc_desc : forall l, desc (map decl_size (sort_desc l)).
Proof. induction l as [|x l IH]; simpl; [constructor|]. apply insert_desc_desc; auto. Qed.

(** length of the text of an object *)
Definition item_len (kv : string * json) : nat := length (jquote (fst kv)) + 1 + length (json_dumps (snd kv)).

Lemma join_length : forall c ps, length (join [c] ps) = list_sum (map (@length ascii) ps) + (length ps - 1).
Proof.
  assert (C: forall a l, list_sum (a :: l) = a + list_sum l) by reflexivity.
  induction ps as [|p ps IH]; auto. rewrite join_cons, app_length. cbn [map]. rewrite C.
  destruct ps as [|q ps]; [cbn; lia|]. rewrite app_length, IH. cbn [map length]. lia.
Qed.

Lemma dumps_obj_length : forall l, length (json_dumps (JObj l)) = 2 + list_sum (map item_len l) + (length l - 1).
Proof.
  intros l. cbn [json_dumps length]. rewrite app_length, join_length, !map_length. cbn [length].
  rewrite map_map. replace (map _ l) with (map item_len l); [lia|].
  apply map_ext. intros [k v]. unfold item_len; cbn [fst snd]. rewrite app_length; cbn [length]. lia.
Qed.

(** part of an entry that does not depend on the offsets *)
Definition fixed (k : string) (d : dtype) (sh : list N) : nat :=
  item_len (k, entry_json d sh 0 0).

Lemma dumps_nums2 : forall a b, length (json_dumps (JArr [JNum a; JNum b])) = 3 + length (dec a) + length (dec b).
Proof. intros. cbn [json_dumps map join length]. rewrite !app_length. cbn [length]. lia. Qed.

Lemma entry_len : forall k d sh a b,
  item_len (k, entry_json d sh a b) + 2 = fixed k d sh + length (dec (N.of_nat a)) + length (dec (N.of_nat b)).
Proof.
  intros. unfold fixed, item_len, entry_json. cbn [fst snd]. rewrite !dumps_obj_length. cbn [map length list_sum fold_right].
  unfold item_len. cbn [fst snd]. rewrite !dumps_nums2. change (N.of_nat 0) with 0%N. change (length (dec 0)) with 1. lia.
Qed.

Lemma dummy_len : forall k d sh a b,
  item_len (k, dummy_entry_json d sh a b) + 2 = fixed k d sh + length (dec a) + length (dec b).
Proof.
  intros. unfold fixed, item_len, entry_json, dummy_entry_json. cbn [fst snd]. rewrite !dumps_obj_length. cbn [map length list_sum fold_right].
  unfold item_len. cbn [fst snd]. rewrite !dumps_nums2. change (N.of_nat 0) with 0%N. change (length (dec 0)) with 1. lia.
Qed.

(** digits needed by consecutive blocks of the given sizes *)
Fixpoint offs_len (off : N) (l : list N) : nat :=
  match l with
  | [] => 0
  | x :: l' => length (dec off) + length (dec (off + x)) + offs_len (off + x) l'
  end.

Lemma offs_len_mono : forall l l' off off',
  length l <= length l' -> (off <= off')%N ->
  (forall i, i <= length l -> (off + sumN (firstn i l) <= off' + sumN (firstn i l'))%N) ->
  offs_len off l <= offs_len off' l'.
Proof.
  induction l as [|x l IH]; intros l' off off' HL Ho H; simpl; [lia|].
  destruct l' as [|y l']; [simpl in HL; lia|].
  assert (H1: (off + x <= off' + y)%N).
  { specialize (H 1 ltac:(simpl; lia)). cbn [firstn sumN fold_right] in H. lia. }
  simpl. pose proof (dec_length_mono _ _ Ho). pose proof (dec_length_mono _ _ H1).
  assert (offs_len (off + x) l <= offs_len (off' + y) l').
  { apply IH; [simpl in HL; lia|auto|]. intros i Hi. specialize (H (S i) ltac:(simpl; lia)).
    cbn [firstn sumN fold_right] in H. fold (sumN (firstn i l)) in H. fold (sumN (firstn i l')) in H. lia. }
  lia.
Qed.

Lemma layout_items : forall segs off,
  list_sum (map item_len (map ej (layout off segs))) + 2 * length segs =
  list_sum (map (fun s : seg => fixed (fst s) (t_dtype (snd s)) (t_shape (snd s))) segs) +
  offs_len (N.of_nat off) (map (fun s : seg => N.of_nat (length (t_bytes (snd s)))) segs).
Proof.
  induction segs as [|[k t] segs IH]; intros off; [reflexivity|].
  cbn [layout map list_sum fold_right length offs_len fst snd].
  specialize (IH (off + length (t_bytes t))).
  fold (list_sum (map item_len (map ej (layout (off + length (t_bytes t)) segs)))).
  fold (list_sum (map (fun s : seg => fixed (fst s) (t_dtype (snd s)) (t_shape (snd s))) segs)).
  unfold ej at 1. cbn [fst snd e_dtype e_shape e_start e_stop].
  pose proof (entry_len k (t_dtype t) (t_shape t) off (off + length (t_bytes t))) as E.
  rewrite Nat2N.inj_add in *. lia.
Qed.

Lemma dummy_items : forall l off h,
  NoDup (map fst h ++ map fst l) ->
  exists items, dummy_header off l h = h ++ items /\ length items = length l /\
  list_sum (map item_len items) + 2 * length l =
  list_sum (map (fun x : decl => fixed (fst x) (fst (snd x)) (snd (snd x))) l) +
  offs_len off (map decl_size l).
Proof.
  induction l as [|[k [d s]] l IH]; intros off h ND; simpl dummy_header.
  - exists []. rewrite app_nil_r. auto.
  - rewrite (dset_fresh String.eqb String.eqb_spec).
    2:{ simpl in ND. apply NoDup_remove_2 in ND. rewrite in_app_iff in ND. tauto. }
    destruct (IH (off + byte_size d s)%N (h ++ [(k, dummy_entry_json d s off (off + byte_size d s)%N)])) as (items & E & L & Q).
    { rewrite map_app, <- app_assoc. simpl. exact ND. }
    exists ((k, dummy_entry_json d s off (off + byte_size d s)%N) :: items).
    rewrite E, <- app_assoc. split; [auto|]. split; [simpl; lia|].
    cbn [map list_sum fold_right length offs_len fst snd].
    fold (list_sum (map item_len items)).
    fold (list_sum (map (fun x : decl => fixed (fst x) (fst (snd x)) (snd (snd x))) l)).
    pose proof (dummy_len k d s off (off + byte_size d s)%N) as E2.
    unfold decl_size at 1 2. cbn [fst snd]. lia.
Qed.

Lemma list_sum_perm : forall l l', Permutation l l' -> list_sum l = list_sum l'.
Proof.
  intros l l' H. induction H; auto; try (rewrite IHPermutation1; auto).
  - change (x + list_sum l = x + list_sum l'). lia.
  - change (y + (x + list_sum l) = x + (y + list_sum l)). lia.
Qed.

Lemma header_fits : forall declared recipe segs H,
  NoDup ("__metadata__"%string :: map fst declared) ->
  NoDup (map fst segs) ->
  (forall k t, In (k, t) segs -> wf_tensor t /\ In (k, (Some (t_dtype t), Some (t_shape t))) declared) ->
  Permutation H (layout 0 segs) ->
  length (json_dumps (JObj (meta_entry recipe :: map ej H))) <= max_header declared recipe.
Proof.
  intros declared recipe segs H NDd NDs Hin HP. unfold max_header.
  set (L := sort_desc (trim declared)).
  assert (Htrim : forall k d s, In (k, (d, s)) (trim declared) <-> In (k, (Some d, Some s)) declared).
  { clear. intros k d s. induction declared as [|[k' [[d'|] [s'|]]] l IH]; simpl; [tauto| | | |];
      rewrite ?IH; (split; [intros E|intros E]); auto;
      destruct E as [E|E]; auto; inversion E; subst; auto. }
  assert (Hkeys : forall x, In x (map fst (trim declared)) -> In x (map fst declared)).
  { intros x Hx. apply in_map_iff in Hx as ([k [d s]] & <- & Hx). apply Htrim in Hx. apply (in_map fst) in Hx; auto. }
  assert (NDt : NoDup (map fst (trim declared))).
  { clear - NDd. inversion NDd as [|? ? _ ND]; subst. clear NDd.
    induction declared as [|[k' [[d'|] [s'|]]] l IH]; simpl in *; try constructor; inversion ND; subst; auto.
    intros Hx. apply H1. clear - Hx. revert Hx. induction l as [|[k0 [[?|] [?|]]] l IH]; simpl; tauto. }
  assert (NDm : ~ In "__metadata__"%string (map fst (trim declared))).
  { intros Hx. inversion NDd; subst. auto. }
  assert (HPL : Permutation (trim declared) L) by apply sort_desc_perm.
  assert (NDL : NoDup (map fst (base_header recipe) ++ map fst L)).
  { simpl. constructor.
    - intros Hx. apply NDm. eapply Permutation_in; [|exact Hx]. apply Permutation_map. symmetry; auto.
    - eapply Permutation_NoDup; [apply Permutation_map; exact HPL|auto]. }
  destruct (dummy_items L 0%N (base_header recipe) NDL) as (items & E & Li & Q).
  rewrite E. change (base_header recipe) with [meta_entry recipe]. cbn [app].
  rewrite !dumps_obj_length. cbn [map list_sum fold_right length].
  fold (list_sum (map item_len (map ej H))). fold (list_sum (map item_len items)).
  assert (EH : list_sum (map item_len (map ej H)) = list_sum (map item_len (map ej (layout 0 segs)))).
  { apply list_sum_perm. do 2 apply Permutation_map. auto. }
  assert (LH : length (map ej H) = length segs).
  { rewrite map_length. rewrite (Permutation_length HP). rewrite <- (map_length fst). rewrite layout_keys, map_length. auto. }
  pose proof (layout_items segs 0) as QS. rewrite EH, LH, Li.
  (* the tensors written are a sub-multiset of the declared ones *)
  set (D := map (fun s : seg => (fst s, (t_dtype (snd s), t_shape (snd s)))) segs : list decl).
  assert (NDD : NoDup D).
  { apply (NoDup_map_inv fst). unfold D. rewrite map_map. simpl. auto. }
  assert (Hrest : exists R, Permutation (D ++ R) L).
  { assert (incl D L) as Hincl.
    { intros x Hx. unfold D in Hx. apply in_map_iff in Hx as ([k t] & <- & Hx). simpl.
      eapply Permutation_in; [exact HPL|]. apply Htrim. apply Hin; auto. }
    revert NDD Hincl. clearbody L D. clear. intros NDD. revert L. induction NDD as [|x D Hx ND IH]; intros L Hincl.
    - exists L; auto.
    - assert (In x L) as HxL by (apply Hincl; simpl; auto).
      apply in_split in HxL as (l1 & l2 & ->).
      destruct (IH (l1 ++ l2)) as (R & HR).
      + intros y Hy. assert (In y (l1 ++ x :: l2)) as Hy' by (apply Hincl; simpl; auto).
        apply in_app_iff in Hy'. apply in_app_iff. simpl in Hy'. destruct Hy' as [|[->|]]; auto. tauto.
      + exists R. simpl. rewrite HR. apply Permutation_middle. }
  destruct Hrest as (R & HR).
  assert (Hsz : map (fun s : seg => N.of_nat (length (t_bytes (snd s)))) segs = map decl_size D).
  { unfold D. rewrite map_map. apply map_ext_in. intros [k t] Hx. destruct (Hin k t Hx) as (W & _).
    unfold wf_tensor in W. simpl. unfold decl_size; simpl. auto. }
  assert (Hfix : list_sum (map (fun s : seg => fixed (fst s) (t_dtype (snd s)) (t_shape (snd s))) segs)
               = list_sum (map (fun x : decl => fixed (fst x) (fst (snd x)) (snd (snd x))) D)).
  { unfold D. rewrite map_map. auto. }
  assert (HfixL : list_sum (map (fun x : decl => fixed (fst x) (fst (snd x)) (snd (snd x))) L) =
     list_sum (map (fun x : decl => fixed (fst x) (fst (snd x)) (snd (snd x))) D) +
     list_sum (map (fun x : decl => fixed (fst x) (fst (snd x)) (snd (snd x))) R)).
  { rewrite <- list_sum_app, <- map_app. apply list_sum_perm. apply Permutation_map. symmetry; auto. }
  assert (LD : length D = length segs) by (unfold D; apply map_length).
  assert (LL : length L = length D + length R) by (rewrite <- app_length; symmetry; apply Permutation_length; auto).
  assert (Hfix2 : 2 * length R <= list_sum (map (fun x : decl => fixed (fst x) (fst (snd x)) (snd (snd x))) R)).
  { clear. induction R as [|[k [d s]] R IH]; simpl; [lia|].
    fold (list_sum (map (fun x : decl => fixed (fst x) (fst (snd x)) (snd (snd x))) R)).
    assert (2 <= fixed k d s).
    { unfold fixed, item_len. simpl. pose proof (jquote_length k). simpl in *. lia. }
    lia. }
  assert (Hoff : offs_len 0 (map decl_size D) <= offs_len 0 (map decl_size L)).
  { apply offs_len_mono; [rewrite !map_length; lia|lia|].
    intros i Hi. rewrite !N.add_0_l. rewrite map_length in Hi.
    pose proof (desc_prefix_max (map decl_size L) (firstn i (map decl_size D)) (skipn i (map decl_size D) ++ map decl_size R)
       (sort_desc_desc _)) as HM.
    rewrite app_assoc, firstn_skipn, <- map_app in HM. specialize (HM (Permutation_map decl_size HR)).
    replace (length (firstn i (map decl_size D))) with i in HM; auto.
    rewrite firstn_length, map_length. lia. }
  change (N.of_nat 0) with 0%N in QS. rewrite Hsz, Hfix in QS. clearbody D. unfold seg, decl in *. lia.
Qed.
