(** Proofs about the reader of ModelStream.v. *)
From Coq Require Import String Ascii List Bool Arith NArith Lia Permutation Sorted.
From Verif Require Import Base Dec Json PyStr ModelStream.
Import ListNotations.

Lemma firstn_nth_error : forall A n i (l : list A), i < n -> nth_error (firstn n l) i = nth_error l i.
Proof.
  induction n as [|n IH]; intros i l H; [lia|].
  destruct l as [|x l]; [destruct i; auto|]. destruct i; simpl; auto. apply IH; lia.
Qed.

Lemma skipn_nth_error : forall A n i (l : list A), nth_error (skipn n l) i = nth_error l (n + i).
Proof.
  induction n as [|n IH]; intros i l; simpl; auto.
  destruct l as [|x l]; simpl; auto. destruct i; auto.
Qed.

Lemma nth_error_ext : forall A (l l' : list A), (forall i, nth_error l i = nth_error l' i) -> l = l'.
Proof.
  induction l as [|x l IH]; intros l' H.
  - destruct l'; auto. specialize (H 0); discriminate.
  - destruct l' as [|y l']; [specialize (H 0); discriminate|].
    pose proof (H 0) as H0; simpl in H0; inversion H0; subst. f_equal.
    apply IH. intros i; apply (H (S i)).
Qed.

Definition window_ok (s : ins) : Prop :=
  in_cur s < length (in_heap s) /\
  forall i, i < length (cur_buf s) -> in_start s + i < length (in_file s) ->
    nth_error (cur_buf s) i = nth_error (in_file s) (in_start s + i).

Definition same_file (s s' : ins) : Prop :=
  in_file s' = in_file s /\ in_bufsize s' = in_bufsize s /\ in_hsize s' = in_hsize s /\
  in_header s' = in_header s /\ exists more, in_heap s' = in_heap s ++ more.

Lemma same_file_refl : forall s, same_file s s.
Proof. intros s; repeat split; auto. exists []. rewrite app_nil_r; auto. Qed.

Lemma same_file_trans : forall a b c, same_file a b -> same_file b c -> same_file a c.
Proof.
  intros a b c (A1 & A2 & A3 & A4 & x & A5) (B1 & B2 & B3 & B4 & y & B5).
  repeat split; try congruence. exists (x ++ y). rewrite B5, A5, app_assoc; auto.
Qed.

Lemma readinto_length : forall cap f pos buf, length (readinto cap f pos buf) = length buf.
Proof.
  intros. unfold readinto, fread. rewrite app_length, skipn_length, firstn_length, skipn_length. lia.
Qed.

Lemma readinto_nth : forall cap f pos buf i, length buf <= cap -> i < length buf -> pos + i < length f ->
  nth_error (readinto cap f pos buf) i = nth_error f (pos + i).
Proof.
  intros cap f pos buf i Hc Hi Hf. unfold readinto, fread.
  rewrite nth_error_app1 by (rewrite firstn_length, skipn_length; lia).
  rewrite firstn_nth_error by lia. apply skipn_nth_error.
Qed.

Lemma ensure_buffer_ok : forall cap s start len,
  window_ok s -> in_bufsize s <= cap -> len <= cap ->
  let s' := ensure_buffer cap s start len in
  window_ok s' /\ same_file s s' /\
  in_start s' <= start /\ start + len <= in_start s' + length (cur_buf s').
Proof.
  intros cap s start len Hw Hb Hl s'. unfold s', ensure_buffer.
  destruct ((start <? in_start s) || (in_start s + length (cur_buf s) <? start + len)) eqn:E.
  - set (need := Nat.max (in_bufsize s) len).
    set (buf := if length (cur_buf s) <? need then zeros need else firstn need (cur_buf s)).
    assert (Lb : length buf = need).
    { unfold buf. destruct (Nat.ltb_spec (length (cur_buf s)) need).
      - apply repeat_length.
      - rewrite firstn_length. lia. }
    set (s1 := INS _ _ _ _ _ _ _).
    assert (Hcur : cur_buf s1 = readinto cap (in_file s) start buf).
    { unfold cur_buf, s1; simpl. rewrite app_nth2, Nat.sub_diag; auto. }
    split; [split|split; [|split]].
    + unfold s1; simpl. rewrite app_length; simpl; lia.
    + rewrite Hcur. simpl. intros i Hi Hf. rewrite readinto_length in Hi.
      apply readinto_nth; auto; lia.
    + unfold s1; repeat split; simpl; auto. eexists; reflexivity.
    + simpl; lia.
    + rewrite Hcur, readinto_length, Lb. simpl. lia.
  - apply orb_false_iff in E as [E1 E2].
    apply Nat.ltb_ge in E1. apply Nat.ltb_ge in E2.
    split; [auto|split; [apply same_file_refl|lia]].
Qed.

(** all tensors of the header fit in one raw read *)
Definition entries_fit (cap : nat) (h : list (string * json)) : Prop :=
  forall k v d sh a b, In (k, v) h -> entry_info v = Ok (d, sh, a, b) -> N.to_nat (b - a) <= cap.

Lemma in_get_keeps : forall cap s k, window_ok s -> in_bufsize s <= cap -> entries_fit cap (in_header s) ->
  window_ok (snd (in_get cap s k)) /\ same_file s (snd (in_get cap s k)).
Proof.
  intros cap s k Hw Hb Hf. unfold in_get.
  destruct (dget String.eqb k (in_header s)) as [v|] eqn:Ek; [|split; [auto|apply same_file_refl]].
  destruct (String.eqb k "__metadata__"); [split; [auto|apply same_file_refl]|].
  destruct (entry_info v) as [[[[d sh] a] b]|e] eqn:Ev; [|split; [auto|apply same_file_refl]].
  destruct (b <? a)%N; [split; [auto|apply same_file_refl]|].
  destruct (N.to_nat (b - a) =? 0); [destruct (numel sh =? 0)%N; split; auto; apply same_file_refl|].
  assert (N.to_nat (b - a) <= cap).
  { eapply Hf; eauto. apply (dget_In String.eqb String.eqb_spec) in Ek; eauto. }
  destruct (ensure_buffer_ok cap s (8 + in_hsize s + N.to_nat a) (N.to_nat (b - a)) Hw Hb H) as (W & S1 & _).
  destruct (N.to_nat (b - a) / dtype_size d =? 0); [split; auto|].
  destruct (numel sh =? N.of_nat (N.to_nat (b - a) / dtype_size d))%N; split; auto.
Qed.

Definition in_gets (cap : nat) (s : ins) (ks : list string) : ins :=
  fold_left (fun s k => snd (in_get cap s k)) ks s.

Lemma in_gets_keeps : forall cap ks s, window_ok s -> in_bufsize s <= cap -> entries_fit cap (in_header s) ->
  window_ok (in_gets cap s ks) /\ same_file s (in_gets cap s ks).
Proof.
  induction ks as [|k ks IH]; intros s Hw Hb Hf; simpl.
  - split; auto; apply same_file_refl.
  - destruct (in_get_keeps cap s k Hw Hb Hf) as (W & S1).
    destruct S1 as (F1 & F2 & F3 & F4 & F5).
    assert (Hb' : in_bufsize (snd (in_get cap s k)) <= cap) by congruence.
    assert (Hf' : entries_fit cap (in_header (snd (in_get cap s k)))) by (rewrite F4; auto).
    destruct (IH _ W Hb' Hf') as (W' & S2). fold (in_gets cap (snd (in_get cap s k)) ks).
    split; [exact W'|]. eapply same_file_trans; [|exact S2]. repeat split; auto.
Qed.

Lemma dtype_size_pos : forall d, 1 <= dtype_size d.
Proof. destruct d; simpl; lia. Qed.

Lemma in_get_spec : forall cap s k v d sh a b,
  window_ok s -> in_bufsize s <= cap -> entries_fit cap (in_header s) ->
  dget String.eqb k (in_header s) = Some v -> k <> "__metadata__"%string ->
  entry_info v = Ok (d, sh, a, b) -> (a + byte_size d sh)%N = b ->
  8 + in_hsize s + N.to_nat b <= length (in_file s) ->
  exists w, fst (in_get cap s k) = Ok w /\
    view_tensor (in_heap (snd (in_get cap s k))) w =
      Tensor d sh (slice (8 + in_hsize s + N.to_nat a) (8 + in_hsize s + N.to_nat b) (in_file s)).
Proof.
  intros cap s k v d sh a b Hw Hb Hf Hk Hne Hv Hab Hlen.
  unfold in_get. rewrite Hk. destruct (String.eqb_spec k "__metadata__"); [congruence|].
  rewrite Hv. destruct (N.ltb_spec b a); [lia|].
  assert (Hfit: N.to_nat (b - a) <= cap).
  { eapply Hf; eauto. apply (dget_In String.eqb String.eqb_spec) in Hk; eauto. }
  unfold byte_size in Hab.
  pose proof (dtype_size_pos d) as Hd.
  destruct (Nat.eqb_spec (N.to_nat (b - a)) 0) as [E|E].
  - assert (Hn: numel sh = 0%N). { destruct (N.eq_dec (numel sh) 0); auto. nia. }
    rewrite Hn. simpl. eexists; split; [reflexivity|].
    unfold view_tensor; simpl. unfold slice. replace (N.to_nat b) with (N.to_nat a) by lia.
    rewrite Nat.sub_diag. reflexivity.
  - destruct (ensure_buffer_ok cap s (8 + in_hsize s + N.to_nat a) (N.to_nat (b - a)) Hw Hb Hfit)
      as ((Hc & W) & (F1 & F2 & F3 & F4 & F5) & L1 & L2).
    set (s' := ensure_buffer cap s (8 + in_hsize s + N.to_nat a) (N.to_nat (b - a))) in *.
    assert (Hdiv : N.to_nat (b - a) = N.to_nat (numel sh) * dtype_size d) by lia.
    rewrite Hdiv, Nat.div_mul by lia.
    destruct (Nat.eqb_spec (N.to_nat (numel sh)) 0) as [E2|E2]; [nia|].
    rewrite N2Nat.id, N.eqb_refl. cbn [fst snd].
    eexists; split; [reflexivity|]. unfold view_tensor. cbn [view_dtype view_shape view_bytes].
    f_equal. rewrite <- Hdiv.
    set (start := 8 + in_hsize s + N.to_nat a) in *.
    unfold slice. replace (8 + in_hsize s + N.to_nat b - start) with (N.to_nat (b - a)) by (unfold start; lia).
    fold (cur_buf s').
    apply nth_error_ext. intros i.
    destruct (le_lt_dec (N.to_nat (b - a)) i) as [Hi|Hi].
    + rewrite (proj2 (nth_error_None _ _)), (proj2 (nth_error_None _ _)); auto;
        rewrite firstn_length; lia.
    + rewrite !firstn_nth_error, !skipn_nth_error by lia.
      rewrite W; [|lia|]; rewrite F1; [|lia].
      f_equal. lia.
Qed.

Lemma in_open_window : forall cap f n s, in_open cap f n = Ok s ->
  window_ok s /\ in_file s = f /\ in_bufsize s = n.
Proof.
  intros cap f n s H. unfold in_open in H. apply bind_Ok in H as (p & _ & H).
  inversion H; subst; simpl. repeat split; simpl; auto. intros i Hi; simpl in Hi; lia.
Qed.

Lemma same_file_view : forall s s' w, same_file s s' ->
  (match w with VEmpty _ _ => True | VBuf _ _ b _ _ => b < length (in_heap s) end) ->
  view_tensor (in_heap s') w = view_tensor (in_heap s) w.
Proof.
  intros s s' w (_ & _ & _ & _ & more & E) H. unfold view_tensor. f_equal.
  destruct w as [|d sh b off n]; simpl; auto. rewrite E, app_nth1; auto.
Qed.

Lemma in_get_view_valid : forall cap s k w, window_ok s -> in_bufsize s <= cap -> entries_fit cap (in_header s) ->
  fst (in_get cap s k) = Ok w ->
  match w with VEmpty _ _ => True | VBuf _ _ b _ _ => b < length (in_heap (snd (in_get cap s k))) end.
Proof.
  intros cap s k w Hw Hb Hf. unfold in_get.
  destruct (dget String.eqb k (in_header s)) as [v|] eqn:Ek; [|discriminate].
  destruct (String.eqb k "__metadata__"); [discriminate|].
  destruct (entry_info v) as [[[[d sh] a] b]|e] eqn:Ev; [|discriminate].
  destruct (b <? a)%N; [discriminate|].
  destruct (N.to_nat (b - a) =? 0).
  { destruct (numel sh =? 0)%N; intros H; inversion H; auto. }
  assert (Hfit: N.to_nat (b - a) <= cap).
  { eapply Hf; eauto. apply (dget_In String.eqb String.eqb_spec) in Ek; eauto. }
  destruct (ensure_buffer_ok cap s (8 + in_hsize s + N.to_nat a) (N.to_nat (b - a)) Hw Hb Hfit) as ((Hc & _) & _).
  destruct (N.to_nat (b - a) / dtype_size d =? 0); [discriminate|].
  destruct (numel sh =? N.of_nat (N.to_nat (b - a) / dtype_size d))%N; intros H; inversion H; simpl; auto.
Qed.

(** ** header sorting *)
Lemma insert_asc_perm : forall n x l, Permutation ((n, x) :: l) (insert_asc n x l).
Proof.
  induction l as [|[m y] l IH]; simpl; auto.
  destruct (n <=? m)%N; auto. rewrite perm_swap. constructor; auto.
Qed.

Lemma sort_fold_perm : forall l,
  Permutation l (fold_right (fun (nk : N * (string * json)) acc => insert_asc (fst nk) (snd nk) acc) [] l).
Proof.
  induction l as [|[n x] l IH]; simpl; auto. rewrite <- insert_asc_perm. constructor; auto.
Qed.

Lemma insert_asc_sorted : forall n x l,
  StronglySorted (fun a b : N * (string * json) => fst a <= fst b)%N l ->
  StronglySorted (fun a b : N * (string * json) => fst a <= fst b)%N (insert_asc n x l).
Proof.
  induction l as [|[m y] l IH]; intros H; simpl.
  - repeat constructor.
  - inversion H as [|? ? Hs Hf]; subst. destruct (N.leb_spec n m).
    + constructor; auto. constructor; simpl; auto.
      eapply Forall_impl; [|exact Hf]. simpl; intros; lia.
    + constructor; auto.
      apply (Permutation_Forall (insert_asc_perm n x l)). constructor; simpl; auto; lia.
Qed.

Lemma sort_fold_sorted : forall l,
  StronglySorted (fun a b : N * (string * json) => fst a <= fst b)%N
    (fold_right (fun (nk : N * (string * json)) acc => insert_asc (fst nk) (snd nk) acc) [] l).
Proof. induction l as [|[n x] l IH]; simpl; [constructor|]. apply insert_asc_sorted; auto. Qed.

Lemma sort_header_spec : forall h h', sort_header h = Ok h' ->
  Permutation h h' /\
  StronglySorted (fun a b => forall n m, sort_key (snd a) = Ok n -> sort_key (snd b) = Ok m -> (n <= m)%N) h'.
Proof.
  intros h h' H. unfold sort_header in H. apply bind_Ok in H as (keyed & Hk & H).
  inversion H; subst; clear H.
  apply mapM_Ok_Forall2 in Hk.
  assert (Hm : map snd keyed = h /\ Forall (fun nk => sort_key (snd (snd nk)) = Ok (fst nk)) keyed).
  { induction Hk as [|x y l l' Hxy _ (IH1 & IH2)]; simpl; auto.
    apply bind_Ok in Hxy as (n & Hn & E). inversion E; subst; simpl.
    split; [f_equal; auto|constructor; auto]. }
  destruct Hm as (Hm & Hkey). split.
  - rewrite <- Hm at 1. apply Permutation_map. apply sort_fold_perm.
  - pose proof (sort_fold_sorted keyed) as Hs.
    apply (Permutation_Forall (sort_fold_perm keyed)) in Hkey.
    revert Hs Hkey. generalize (fold_right (fun (nk : N * (string * json)) acc => insert_asc (fst nk) (snd nk) acc) [] keyed).
    clear. induction l as [|[n x] l IH]; intros Hs Hkey; simpl; [constructor|].
    inversion Hs as [|? ? Hs' Hf]; subst. inversion Hkey as [|? ? Hx Hk']; subst. simpl in *.
    constructor; auto. rewrite Forall_forall in *. intros y Hy.
    apply in_map_iff in Hy as ([m y'] & <- & Hy). simpl.
    intros n0 m0 H0 H1. pose proof (Hf _ Hy) as Hle. pose proof (Hk' _ Hy) as Hk2. simpl in *.
    congruence.
Qed.
