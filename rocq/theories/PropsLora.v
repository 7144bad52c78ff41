(** C44, C56: LoRA names and composition. *)
From Coq Require Import String Ascii List Bool Arith NArith Lia Reals Lra.
From Verif Require Import Base PyStr Dec ModelNum NumProofs PropsDrop PropsDropout ModelKeys ModelKeyConv ModelLora SpecKeys KeysProofs PropsBlocks.
From Verif Require DataSd1Ldm DataSd1Kohya DataSdxlSgm DataSdxlKohya DataSdxlDiffusers DataSd1Blocks DataSdxlBlocks DataFlux DataFluxDiffuser DataSd3.
Import ListNotations.
Open Scope string_scope.
Open Scope list_scope.
Open Scope nat_scope.

(** ** Sums *)
Lemma sum_to_ext : forall n f g, (forall i, (i < n)%N -> f i = g i) -> sum_to n f = sum_to n g.
Proof.
  intros n f g H; unfold sum_to, indices. rewrite !map_map. apply rsum_ext.
  intros i Hi. apply in_seq in Hi. apply H. lia.
Qed.
Lemma sum_to_scale : forall n f c, sum_to n (fun i => (f i * c)%R) = (sum_to n f * c)%R.
Proof. intros n f c; unfold sum_to. apply rsum_map_scale. Qed.
Lemma sum_to_scale_l : forall n f c, sum_to n (fun i => (c * f i)%R) = (c * sum_to n f)%R.
Proof.
  intros n f c. rewrite Rmult_comm, <- sum_to_scale. apply sum_to_ext; intros; apply Rmult_comm.
Qed.
Lemma sum_to_swap : forall n m f, sum_to n (fun i => sum_to m (fun j => f i j)) = sum_to m (fun j => sum_to n (fun i => f i j)).
Proof. intros n m f; unfold sum_to. apply rsum_swap. Qed.
Lemma sum_to_one : forall f, sum_to 1 f = f 0%N.
Proof. intros f; unfold sum_to, indices; simpl. unfold rsum; simpl. lra. Qed.

(** ** C56 *)

(** what the entries of a composed layer should be *)
Definition lora_entry (alpha : R) (r : N) (up down : N -> R) : R :=
  (alpha / INR (N.to_nat r) * sum_to r (fun k => up k * down k))%R.

Section Compose.
  Context (sd : state_dict R) (key : string) (alpha up down : tensor R).
  Hypothesis Ha : sd (key ++ ".alpha")%string = Ok alpha.
  Hypothesis Hd : sd (key ++ ".lora_down.weight")%string = Ok down.
  Hypothesis Hu : sd (key ++ ".lora_up.weight")%string = Ok up.
  Hypothesis Hs : t_shape alpha = [].

  Lemma compose_unfold : forall r rest, t_shape down = r :: rest ->
    compose_lora sd key =
    let s := (t_at alpha [] / INR (N.to_nat r))%R in
    let '(up, down) := if (numel up <=? numel down)%N then (scale up s, down) else (up, scale down s) in
    if length (t_shape down) =? 2 then matmul up down
    else if list_eq_dec N.eq_dec (firstn 2 (skipn 2 (t_shape down))) [1%N; 1%N] then
      let* u := squeeze_trailing up in
      let* d := squeeze_trailing down in
      let* m := matmul u d in
      Ok (unsqueeze_trailing m)
    else
      let* d := permute_1023 down in
      let* c := conv2d d up in
      permute_1023 c.
  Proof.
    intros r rest Sd. unfold compose_lora. rewrite !cat2, Ha, Hd, Hu; cbn [bind]. rewrite Sd, Hs; cbn [bind].
    reflexivity.
  Qed.

  (** linear layers, whichever factor the scale goes into *)
  Theorem C56_linear_in : forall o r i, t_shape up = [o; r] -> t_shape down = [r; i] ->
    exists t, compose_lora sd key = Ok t /\ t_shape t = [o; i] /\
      forall a b, t_at t [a; b] = lora_entry (t_at alpha []) r (fun k => t_at up [a; k]) (fun k => t_at down [k; b]).
  Proof.
    intros o r i Su Sd. rewrite (compose_unfold r [i] Sd). cbv zeta.
    destruct (numel up <=? numel down)%N; unfold scale; cbn [t_shape]; rewrite Sd; cbn [length Nat.eqb];
      unfold matmul; cbn [t_shape]; rewrite Su, ?Sd, N.eqb_refl; eexists; (split; [reflexivity|]); (split; [reflexivity|]);
      intros a b; cbn [t_at]; unfold lora_entry; rewrite <- sum_to_scale_l; apply sum_to_ext; intros k _; ring.
  Qed.

  (** convolutions with a 1x1 upper factor, of any kernel size *)
  Theorem C56_conv_in : forall o r i h w, t_shape up = [o; r; 1; 1]%N -> t_shape down = [r; i; h; w] ->
    (0 < h)%N -> (0 < w)%N ->
    exists t, compose_lora sd key = Ok t /\ t_shape t = [o; i; h; w] /\
      forall a b y x, (y < h)%N -> (x < w)%N ->
        t_at t [a; b; y; x] =
        lora_entry (t_at alpha []) r (fun k => t_at up [a; k; 0; 0]%N) (fun k => t_at down [k; b; y; x]).
  Proof.
    intros o r i h w Su Sd Ph Pw. rewrite (compose_unfold r [i; h; w] Sd). cbv zeta.
    destruct (numel up <=? numel down)%N; unfold scale; cbn [t_shape]; rewrite Sd; cbn [length Nat.eqb];
      cbn [skipn firstn]; destruct (list_eq_dec N.eq_dec [h; w] [1%N; 1%N]) as [E|E].
    - injection E as Eh Ew; subst h w. unfold squeeze_trailing; cbn [t_shape]. rewrite Su, ?Sd. cbn [N.eqb Pos.eqb bind].
      unfold matmul; cbn [t_shape]. rewrite N.eqb_refl. cbn [bind].
      eexists; split; [reflexivity|]. split; [reflexivity|]. intros a b y x Hy Hx.
      replace y with 0%N by lia. replace x with 0%N by lia.
      cbn [unsqueeze_trailing t_at t_shape length firstn app].
      unfold lora_entry; rewrite <- sum_to_scale_l; apply sum_to_ext; intros k _; cbn [app]; ring.
    - unfold permute_1023 at 1. rewrite ?Sd. cbn [bind]. unfold conv2d; cbn [t_shape]. rewrite Su.
      rewrite N.eqb_refl. assert (L1 : (1 <=? h)%N = true) by (apply N.leb_le; lia).
      assert (L2 : (1 <=? w)%N = true) by (apply N.leb_le; lia). rewrite L1, L2. cbn [andb bind].
      unfold permute_1023; cbn [t_shape]. eexists; split; [reflexivity|]. cbn [t_shape]. split.
      { f_equal; f_equal. f_equal; [lia|f_equal; lia]. }
      intros a b y x Hy Hx. cbn [t_at]. unfold lora_entry; rewrite <- sum_to_scale_l; apply sum_to_ext; intros k _.
      rewrite !sum_to_one, !N.add_0_r. ring.
    - injection E as Eh Ew; subst h w. unfold squeeze_trailing; cbn [t_shape]. rewrite Su, ?Sd. cbn [N.eqb Pos.eqb bind].
      unfold matmul; cbn [t_shape]. rewrite N.eqb_refl. cbn [bind].
      eexists; split; [reflexivity|]. split; [reflexivity|]. intros a b y x Hy Hx.
      replace y with 0%N by lia. replace x with 0%N by lia.
      cbn [unsqueeze_trailing t_at t_shape length firstn app].
      unfold lora_entry; rewrite <- sum_to_scale_l; apply sum_to_ext; intros k _; cbn [app]; ring.
    - unfold permute_1023 at 1. cbn [t_shape]. rewrite ?Sd. cbn [bind]. unfold conv2d; cbn [t_shape]. rewrite Su.
      rewrite N.eqb_refl. assert (L1 : (1 <=? h)%N = true) by (apply N.leb_le; lia).
      assert (L2 : (1 <=? w)%N = true) by (apply N.leb_le; lia). rewrite L1, L2. cbn [andb bind].
      unfold permute_1023; cbn [t_shape]. eexists; split; [reflexivity|]. cbn [t_shape]. split.
      { f_equal; f_equal. f_equal; [lia|f_equal; lia]. }
      intros a b y x Hy Hx. cbn [t_at]. unfold lora_entry; rewrite <- sum_to_scale_l; apply sum_to_ext; intros k _.
      rewrite !sum_to_one, !N.add_0_r. ring.
  Qed.
End Compose.

(** Linear layers: the composed matrix is alpha over the rank times [up @ down],
    and feeding it an input gives what the two layers give one after the other,
    scaled. *)
Theorem C56_lora_linear : forall (sd : state_dict R) key alpha up down o r i,
  sd (key ++ ".alpha")%string = Ok alpha -> sd (key ++ ".lora_down.weight")%string = Ok down ->
  sd (key ++ ".lora_up.weight")%string = Ok up ->
  t_shape alpha = [] -> t_shape up = [o; r] -> t_shape down = [r; i] ->
  exists t, compose_lora sd key = Ok t /\ t_shape t = [o; i] /\
    (forall a b, t_at t [a; b] =
       (t_at alpha [] / INR (N.to_nat r) * sum_to r (fun k => t_at up [a; k] * t_at down [k; b]))%R) /\
    (forall a (x : N -> R),
       sum_to i (fun b => t_at t [a; b] * x b)%R =
       (t_at alpha [] / INR (N.to_nat r) *
        sum_to r (fun k => t_at up [a; k] * sum_to i (fun b => t_at down [k; b] * x b)))%R).
Proof.
  intros sd key alpha up down o r i Ha Hd Hu Hs Su Sd.
  destruct (C56_linear_in sd key alpha up down Ha Hd Hu Hs o r i Su Sd) as (t & Et & St & At).
  exists t; repeat split; auto. intros a x.
  rewrite (sum_to_ext i _ (fun b => (t_at alpha [] / INR (N.to_nat r) * sum_to r (fun k => t_at up [a; k] * (t_at down [k; b] * x b)))%R)).
  - rewrite sum_to_scale_l. f_equal. rewrite sum_to_swap. apply sum_to_ext. intros k _. apply sum_to_scale_l.
  - intros b _. rewrite At. unfold lora_entry. rewrite Rmult_assoc, <- sum_to_scale. f_equal.
    apply sum_to_ext. intros k _; ring.
Qed.

(** Convolutions with a 1x1 upper layer, at every kernel position; the second
    part is one output pixel, for any patch of the input. *)
Theorem C56_lora_conv : forall (sd : state_dict R) key alpha up down o r i h w,
  sd (key ++ ".alpha")%string = Ok alpha -> sd (key ++ ".lora_down.weight")%string = Ok down ->
  sd (key ++ ".lora_up.weight")%string = Ok up ->
  t_shape alpha = [] -> t_shape up = [o; r; 1; 1]%N -> t_shape down = [r; i; h; w] -> (0 < h)%N -> (0 < w)%N ->
  exists t, compose_lora sd key = Ok t /\ t_shape t = [o; i; h; w] /\
    (forall a b y x, (y < h)%N -> (x < w)%N -> t_at t [a; b; y; x] =
       (t_at alpha [] / INR (N.to_nat r) * sum_to r (fun k => t_at up [a; k; 0; 0]%N * t_at down [k; b; y; x]))%R) /\
    (forall a (p : N -> N -> N -> R),
       sum_to i (fun b => sum_to h (fun y => sum_to w (fun x => t_at t [a; b; y; x] * p b y x)))%R =
       (t_at alpha [] / INR (N.to_nat r) *
        sum_to r (fun k => t_at up [a; k; 0; 0]%N *
          sum_to i (fun b => sum_to h (fun y => sum_to w (fun x => t_at down [k; b; y; x] * p b y x)))))%R).
Proof.
  intros sd key alpha up down o r i h w Ha Hd Hu Hs Su Sd Ph Pw.
  destruct (C56_conv_in sd key alpha up down Ha Hd Hu Hs o r i h w Su Sd Ph Pw) as (t & Et & St & At).
  exists t; repeat split; auto. intros a p.
  set (c := (t_at alpha [] / INR (N.to_nat r))%R).
  rewrite (sum_to_ext i _ (fun b => (c * sum_to r (fun k => t_at up [a; k; 0%N; 0%N] *
             sum_to h (fun y => sum_to w (fun x => t_at down [k; b; y; x] * p b y x))))%R)).
  - rewrite sum_to_scale_l. f_equal. rewrite sum_to_swap. apply sum_to_ext. intros k _. apply sum_to_scale_l.
  - intros b _.
    rewrite (sum_to_ext h _ (fun y => (c * sum_to r (fun k => t_at up [a; k; 0%N; 0%N] *
               sum_to w (fun x => t_at down [k; b; y; x] * p b y x)))%R)).
    + rewrite sum_to_scale_l. f_equal. rewrite sum_to_swap. apply sum_to_ext. intros k _. apply sum_to_scale_l.
    + intros y Hy.
      rewrite (sum_to_ext w _ (fun x => (c * sum_to r (fun k => t_at up [a; k; 0%N; 0%N] * (t_at down [k; b; y; x] * p b y x)))%R)).
      * rewrite sum_to_scale_l. f_equal. rewrite sum_to_swap. apply sum_to_ext. intros k _. apply sum_to_scale_l.
      * intros x Hx. rewrite (At a b y x Hy Hx). unfold lora_entry. fold c. rewrite Rmult_assoc, <- sum_to_scale. f_equal.
        apply sum_to_ext. intros k _; ring.
Qed.

(** A missing part raises; mismatched ranks raise instead of broadcasting. *)
Theorem C56_lora_errors : forall (sd : state_dict R) key e,
  (sd (key ++ ".alpha")%string = Err e -> compose_lora sd key = Err e) /\
  (is_ok (sd (key ++ ".alpha")%string) = true -> sd (key ++ ".lora_down.weight")%string = Err e -> compose_lora sd key = Err e) /\
  (is_ok (sd (key ++ ".alpha")%string) = true -> is_ok (sd (key ++ ".lora_down.weight")%string) = true ->
     sd (key ++ ".lora_up.weight")%string = Err e -> compose_lora sd key = Err e) /\
  (forall alpha up down o r r' i, sd (key ++ ".alpha")%string = Ok alpha -> sd (key ++ ".lora_down.weight")%string = Ok down ->
     sd (key ++ ".lora_up.weight")%string = Ok up ->
     t_shape alpha = [] -> t_shape up = [o; r] -> t_shape down = [r'; i] -> r <> r' -> compose_lora sd key = Err RuntimeError).
Proof.
  intros sd key e. unfold compose_lora. rewrite !cat2. split; [|split; [|split]].
  - intros H; rewrite H; reflexivity.
  - intros H1 H; rewrite H. destruct (sd (key ++ ".alpha")%string); [reflexivity|discriminate].
  - intros H1 H2 H; rewrite H. destruct (sd (key ++ ".alpha")%string); [|discriminate].
    destruct (sd (key ++ ".lora_down.weight")%string); [reflexivity|discriminate].
  - intros alpha up down o r r' i Ha Hd Hu Hs Su Sd N. rewrite Ha, Hd, Hu; cbn [bind]. rewrite Sd, Hs; cbn [bind].
    apply N.eqb_neq in N.
    destruct (numel up <=? numel down)%N; unfold scale; cbn [t_shape]; rewrite Sd; cbn [length Nat.eqb];
      unfold matmul; cbn [t_shape]; rewrite Su, ?Sd, N; reflexivity.
Qed.

Example C56_applies : exists (sd : state_dict R) alpha up down,
  sd "x.alpha" = Ok alpha /\ sd "x.lora_down.weight" = Ok down /\ sd "x.lora_up.weight" = Ok up /\
  t_shape alpha = [] /\ t_shape up = [3; 2]%N /\ t_shape down = [2; 5]%N.
Proof.
  exists (fun k => if String.eqb k "x.alpha" then Ok (mk_tensor [] (fun _ => 1%R))
                   else if String.eqb k "x.lora_up.weight" then Ok (mk_tensor [3; 2]%N (fun i => INR (N.to_nat (hd 0%N i))))
                   else Ok (mk_tensor [2; 5]%N (fun i => INR (N.to_nat (last i 0%N))))).
  do 3 eexists. repeat split.
Qed.

(** ** C44 *)

(** The name a layout with prefix [p] has for the base key [k]: the dotted words
    without a last "weight", joined by underscores after the prefix. *)
Fixpoint joined (sep : ascii) (ws : list (list ascii)) : list ascii :=
  match ws with
  | [] => []
  | [w] => w
  | w :: ws' => w ++ sep :: joined sep ws'
  end.
Definition lora_name (p k n : string) : Prop :=
  exists body, (words_of k (body ++ [word "weight"]) \/
                (words_of k body /\ last body [] <> word "weight")) /\
    word n = word p ++ "_"%char :: joined "_" body.

Lemma py_split_app : forall w r, ~ In "."%char w -> py_split "." (w ++ "."%char :: r) = w :: py_split "." r.
Proof.
  induction w as [|c w IH]; intros r H; cbn [app py_split].
  - reflexivity.
  - destruct (Ascii.eqb_spec c ".") as [E|E]; [exfalso; apply H; left; auto|].
    rewrite IH; [reflexivity|]. intros X; apply H; right; auto.
Qed.
Lemma py_split_one : forall w, ~ In "."%char w -> py_split "." w = [w].
Proof.
  induction w as [|c w IH]; intros H; cbn [py_split]; [reflexivity|].
  destruct (Ascii.eqb_spec c ".") as [E|E]; [exfalso; apply H; left; auto|].
  rewrite IH; [reflexivity|]. intros X; apply H; right; auto.
Qed.
Lemma words_unique : forall k ws, words_of k ws -> py_split "." (s2l k) = ws.
Proof.
  intros k ws (N & E & D). unfold word in E. unfold s2l. rewrite E. clear E k.
  induction ws as [|w ws IH]; [congruence|]. destruct ws as [|w' ws].
  - cbn [words_joined]. apply py_split_one. apply D; left; auto.
  - change (words_joined (w :: w' :: ws)) with (w ++ "."%char :: words_joined (w' :: ws)).
    rewrite py_split_app by (apply D; left; auto). f_equal. apply IH; [discriminate|].
    intros x Hx; apply D; right; auto.
Qed.
Lemma joined_py : forall ws, py_join (s2l "_") ws = joined "_" ws.
Proof.
  induction ws as [|w ws IH]; [reflexivity|]. destruct ws as [|w' ws]; [reflexivity|].
  change (py_join (s2l "_") (w :: w' :: ws)) with (w ++ s2l "_" ++ py_join (s2l "_") (w' :: ws)).
  rewrite IH. reflexivity.
Qed.
Lemma flat_name_spec : forall k body,
  (words_of k (body ++ [word "weight"]) \/ (words_of k body /\ last body [] <> word "weight")) ->
  flat_name k = joined "_" body.
Proof.
  intros k body H; unfold flat_name. change (s2l "weight") with (word "weight"). destruct H as [H|(H & N)]; apply words_unique in H; rewrite H.
  - rewrite last_last. destruct (list_eq_dec ascii_dec (word "weight") (word "weight")); [|congruence].
    rewrite removelast_last. apply joined_py.
  - destruct (list_eq_dec ascii_dec (last body []) (word "weight")); [congruence|]. apply joined_py.
Qed.
Lemma lora_name_exists : forall p k, exists n, lora_name p k n /\ n = (p ++ "_" ++ l2s (flat_name k))%string.
Proof.
  intros p k. exists (p ++ "_" ++ l2s (flat_name k))%string. split; auto.
  destruct (py_split_words (s2l k)) as (W1 & W2 & W3).
  assert (W : words_of k (py_split "." (s2l k))) by (repeat split; auto).
  destruct (list_eq_dec ascii_dec (last (py_split "." (s2l k)) []) (word "weight")) as [E|E].
  - exists (removelast (py_split "." (s2l k))).
    assert (X : py_split "." (s2l k) = removelast (py_split "." (s2l k)) ++ [word "weight"]).
    { rewrite <- E. apply app_removelast_last; auto. }
    split; [left; rewrite <- X; auto|].
    rewrite <- (flat_name_spec k); [|left; rewrite <- X; auto].
    change (word (p ++ "_" ++ l2s (flat_name k))%string) with (s2l (p ++ "_" ++ l2s (flat_name k))%string).
    rewrite !s2l_app, s2l_l2s. reflexivity.
  - exists (py_split "." (s2l k)). split; [right; auto|].
    rewrite <- (flat_name_spec k); [|right; auto].
    change (word (p ++ "_" ++ l2s (flat_name k))%string) with (s2l (p ++ "_" ++ l2s (flat_name k))%string).
    rewrite !s2l_app, s2l_l2s. reflexivity.
Qed.
Lemma lora_name_unique : forall p k n, lora_name p k n -> n = (p ++ "_" ++ l2s (flat_name k))%string.
Proof.
  intros p k n (body & H & E). apply s2l_inj. rewrite !s2l_app, s2l_l2s, (flat_name_spec k body H). exact E.
Qed.

Lemma joined_nodot : forall ws, (forall w, In w ws -> ~ In "."%char w) -> ~ In "."%char (joined "_" ws).
Proof.
  induction ws as [|w ws IH]; intros D; [auto|]. destruct ws as [|w' ws].
  - cbn [joined]. apply D; left; auto.
  - change (joined "_" (w :: w' :: ws)) with (w ++ "_"%char :: joined "_" (w' :: ws)).
    intros H. apply in_app_or in H as [H|[H|H]].
    + apply (D w); [left; auto|auto].
    + discriminate.
    + apply IH; auto. intros x Hx; apply D; right; auto.
Qed.
Lemma flat_name_nodot : forall k, ~ In "."%char (flat_name k).
Proof.
  intros k. unfold flat_name. destruct (py_split_words (s2l k)) as (_ & _ & W3).
  destruct (list_eq_dec _ _ _); rewrite joined_py; apply joined_nodot; auto.
  intros w Hw. apply W3. revert Hw. generalize (py_split "." (s2l k)). clear.
  induction l as [|x l IH]; simpl; auto. destruct l; [tauto|]. intros [H|H]; auto.
Qed.

Lemma append_inj_l : forall a b c, (a ++ b = a ++ c)%string -> b = c.
Proof. induction a; simpl; intros b c H; auto. injection H as H; auto. Qed.

Lemma to_lycoris_one : forall k d p, suffixed "bias" k = false -> is_floating d = true ->
  to_lycoris_keys [(k, d)] p = map (fun s => (p ++ "_" ++ l2s (flat_name k) ++ "." ++ s)%string) lora_suffixes.
Proof.
  intros k d p H F; unfold to_lycoris_keys; cbn [fold_left fst snd]. rewrite H, F. cbn [orb negb].
  assert (C : forall s, cat [p; "_"; l2s (flat_name k); "."; s] = (p ++ "_" ++ l2s (flat_name k) ++ "." ++ s)%string).
  { intros s; unfold cat, fold_right. rewrite append_nil; reflexivity. }
  unfold lora_suffixes; cbn [fold_left map]. rewrite !C.
  set (base := l2s (flat_name k)). cbn [existsb].
  assert (E1 : String.eqb (p ++ "_" ++ base ++ "." ++ "lora_down.weight") (p ++ "_" ++ base ++ "." ++ "lora_up.weight") = false).
  { apply String.eqb_neq. intros X. apply append_inj_l in X. injection X as X. apply append_inj_l in X. discriminate. }
  assert (E2 : String.eqb (p ++ "_" ++ base ++ "." ++ "alpha") (p ++ "_" ++ base ++ "." ++ "lora_up.weight") = false).
  { apply String.eqb_neq. intros X. apply append_inj_l in X. injection X as X. apply append_inj_l in X. discriminate. }
  assert (E3 : String.eqb (p ++ "_" ++ base ++ "." ++ "alpha") (p ++ "_" ++ base ++ "." ++ "lora_down.weight") = false).
  { apply String.eqb_neq. intros X. apply append_inj_l in X. injection X as X. apply append_inj_l in X. discriminate. }
  cbn [app existsb]. rewrite E1. cbn [orb app existsb]. rewrite E2, E3. reflexivity.
Qed.

(** what a layout declares *)
Lemma to_lycoris_In_acc : forall (f : string -> string) suffixes acc x,
  In x (fold_left (fun acc s => if existsb (String.eqb (f s)) acc then acc else acc ++ [f s]) suffixes acc) <->
  In x acc \/ exists s, In s suffixes /\ x = f s.
Proof.
  induction suffixes as [|s ss IH]; intros acc x; simpl.
  - split; [auto|intros [H|(s & [] & _)]; auto].
  - rewrite IH. destruct (existsb (String.eqb (f s)) acc) eqn:E.
    + apply existsb_In in E. split.
      * intros [H|(s' & H & X)]; [auto|right; eauto].
      * intros [H|(s' & [H|H] & X)]; [auto|left; subst; auto|right; eauto].
    + rewrite in_app_iff. split.
      * intros [[H|[H|[]]]|(s' & H & X)]; [auto|right; exists s; auto|right; eauto].
      * intros [H|(s' & [H|H] & X)]; [auto|subst; left; right; left; auto|right; eauto].
Qed.
Lemma to_lycoris_In : forall keys p x,
  In x (to_lycoris_keys keys p) <->
  exists k d s, In (k, d) keys /\ suffixed "bias" k = false /\ is_floating d = true /\ In s lora_suffixes /\
    x = (p ++ "_" ++ l2s (flat_name k) ++ "." ++ s)%string.
Proof.
  intros keys p x; unfold to_lycoris_keys.
  assert (G : forall acc, In x (fold_left (fun acc kd =>
    if suffixed "bias" (fst kd) || negb (is_floating (snd kd)) then acc
    else fold_left (fun acc suffix =>
           let k := cat [p; "_"; l2s (flat_name (fst kd)); "."; suffix] in
           if existsb (String.eqb k) acc then acc else acc ++ [k]) lora_suffixes acc) keys acc) <->
    In x acc \/ exists k d s, In (k, d) keys /\ suffixed "bias" k = false /\ is_floating d = true /\ In s lora_suffixes /\
    x = (p ++ "_" ++ l2s (flat_name k) ++ "." ++ s)%string).
  { induction keys as [|[k d] keys IH]; intros acc; cbn [fold_left fst snd].
    - split; [auto|]. intros [H|(k & d & s & [] & _)]; auto.
    - rewrite IH. destruct (suffixed "bias" k) eqn:B; [|destruct (is_floating d) eqn:F]; cbn [orb negb].
      + split.
        * intros [H|(k' & d' & s & H & X)]; [auto|right; exists k', d', s; split; [right; auto|auto]].
        * intros [H|(k' & d' & s & [H|H] & X)]; [auto| |right; exists k', d', s; auto].
          injection H as -> ->. destruct X as (X & _); congruence.
      + rewrite (to_lycoris_In_acc (fun s => cat [p; "_"; l2s (flat_name k); "."; s])).
        assert (C : forall s, cat [p; "_"; l2s (flat_name k); "."; s] = (p ++ "_" ++ l2s (flat_name k) ++ "." ++ s)%string)
          by (intros s; unfold cat, fold_right; rewrite append_nil; reflexivity).
        split.
        * intros [[H|(s & Hs & X)]|(k' & d' & s & H & X)]; [auto| |right; exists k', d', s; split; [right; auto|auto]].
          right; exists k, d, s. rewrite C in X. repeat split; auto. left; auto.
        * intros [H|(k' & d' & s & [H|H] & X)]; [auto| |right; exists k', d', s; auto].
          injection H as -> ->. left; right. exists s. rewrite C. tauto.
      + split.
        * intros [H|(k' & d' & s & H & X)]; [auto|right; exists k', d', s; split; [right; auto|auto]].
        * intros [H|(k' & d' & s & [H|H] & X)]; [auto| |right; exists k', d', s; auto].
          injection H as -> ->. destruct X as (_ & X & _); congruence. }
  rewrite G. simpl. split; [intros [[]|H]; auto|auto].
Qed.
Lemma lyco_keys_In : forall l x, In x (lyco_keys l) <->
  exists e s, In e (entries (ly_base l)) /\ suffixed "bias" (ke_key e) = false /\ is_floating (Some (ke_dtype e)) = true /\
    In s lora_suffixes /\ x = (ly_prefix l ++ "_" ++ l2s (flat_name (ke_key e)) ++ "." ++ s)%string.
Proof.
  intros l x; unfold lyco_keys, entries. rewrite in_flat_map. split.
  - intros (comp & Hc & H). apply to_lycoris_In in H as (k & d & s & H & B & F & Hs & X).
    apply in_map_iff in H as (e & E & He). injection E as <- <-.
    exists e, s. repeat split; auto. apply in_flat_map; eauto.
  - intros (e & s & He & B & F & Hs & X). apply in_flat_map in He as (comp & Hc & He).
    exists comp; split; auto. apply to_lycoris_In. exists (ke_key e), (Some (ke_dtype e)), s. repeat split; auto.
    apply in_map_iff; eauto.
Qed.

(** all converters use the prefix of the last layout *)
Lemma last_prefix : forall bases l, In l (lyco_configs bases) -> ly_prefix (last (lyco_configs bases) l) = "lora".
Proof.
  intros bases l H. destruct bases as [|b bases] using rev_ind; [destruct H|].
  unfold lyco_configs. rewrite flat_map_app. cbn [flat_map app].
  change (flat_map (fun b0 => [mk_lyco b0 "lycoris" "lycoris"; mk_lyco b0 "kohya" "lora"]) bases ++
          [mk_lyco b "lycoris" "lycoris"; mk_lyco b "kohya" "lora"])
    with (flat_map (fun b0 => [mk_lyco b0 "lycoris" "lycoris"; mk_lyco b0 "kohya" "lora"]) bases ++
          ([mk_lyco b "lycoris" "lycoris"] ++ [mk_lyco b "kohya" "lora"])).
  rewrite app_assoc, last_last. reflexivity.
Qed.

Lemma converter_reads : forall bases l, In l (lyco_configs bases) -> forall sd k,
  lora_converter bases l sd k =
  if suffixed "bias" k then Err (StateDictKeyError k) else compose_lora sd ("lora_" ++ l2s (flat_name k))%string.
Proof.
  intros bases l H sd k. unfold lora_converter, lora_to_base. rewrite (last_prefix bases l H).
  destruct (suffixed "bias" k) eqn:B.
  - unfold to_lycoris_keys; cbn [fold_left fst snd]. rewrite B. reflexivity.
  - rewrite (to_lycoris_one k None "lora" B eq_refl). cbn [map lora_suffixes].
    f_equal. rewrite !s2l_app, s2l_l2s.
    change (s2l "lora" ++ s2l "_" ++ flat_name k ++ s2l "." ++ s2l "lora_up.weight")
      with ((s2l "lora" ++ s2l "_") ++ flat_name k ++ "."%char :: s2l "lora_up.weight").
    rewrite app_assoc, py_split_app.
    + cbn [hd]. apply s2l_inj. rewrite s2l_l2s, s2l_app, s2l_l2s. reflexivity.
    + intros X. apply in_app_or in X as [X|X].
      * simpl in X. intuition discriminate.
      * exact (flat_name_nodot k X).
Qed.

(** The kohya layout: for every list of base configs, every base config in it
    and every key that is no bias, the converter composes the three entries the
    layout has for that key; these names are the ones its config declares; a
    bias raises. *)
Theorem C44_kohya_partial : forall bases b, In b bases ->
  let l := mk_lyco b "kohya" "lora" in
  (forall k n, suffixed "bias" k = false -> lora_name "lora" k n ->
     forall sd, lora_converter bases l sd k = compose_lora sd n) /\
  (forall k sd, suffixed "bias" k = true -> lora_converter bases l sd k = Err (StateDictKeyError k)) /\
  (forall k, exists n, lora_name "lora" k n) /\
  (forall x, In x (lyco_keys l) <->
     exists e n s, In e (entries b) /\ suffixed "bias" (ke_key e) = false /\
       ke_dtype e <> int64 /\ ke_dtype e <> int32 /\
       lora_name "lora" (ke_key e) n /\ In s [".alpha"; ".lora_down.weight"; ".lora_up.weight"] /\ x = (n ++ s)%string).
Proof.
  intros bases b Hb l.
  assert (Hl : In l (lyco_configs bases)).
  { unfold lyco_configs. apply in_flat_map. exists b; split; auto. right; left; reflexivity. }
  split; [|split; [|split]].
  - intros k n B L sd. rewrite (converter_reads bases l Hl), B. apply lora_name_unique in L. subst n. reflexivity.
  - intros k sd B. rewrite (converter_reads bases l Hl), B. reflexivity.
  - intros k. destruct (lora_name_exists "lora" k) as (n & L & _); eauto.
  - intros x. rewrite lyco_keys_In. cbn [ly_base ly_prefix l].
    assert (A : forall n s, (("lora" ++ "_" ++ n) ++ "." ++ s = "lora" ++ "_" ++ n ++ "." ++ s)%string).
    { intros n s. apply s2l_inj. rewrite !s2l_app, <- !app_assoc. reflexivity. }
    split.
    + intros (e & s & He & B & F & Hs & X).
      destruct (lora_name_exists "lora" (ke_key e)) as (n & L & En).
      exists e, n, ("." ++ s)%string. repeat split; auto.
      * intros C; rewrite C in F; discriminate.
      * intros C; rewrite C in F; discriminate.
      * destruct Hs as [<-|[<-|[<-|[]]]]; simpl; auto.
      * rewrite X, En, A. reflexivity.
    + intros (e & n & s & He & B & F1 & F2 & L & Hs & X). apply lora_name_unique in L.
      assert (F : is_floating (Some (ke_dtype e)) = true) by (destruct (ke_dtype e); simpl; congruence).
      destruct Hs as [<-|[<-|[<-|[]]]].
      * exists e, "alpha". rewrite X, L. repeat split; auto; try (simpl; tauto); exact (A _ "alpha").
      * exists e, "lora_down.weight". rewrite X, L. repeat split; auto; try (simpl; tauto); exact (A _ "lora_down.weight").
      * exists e, "lora_up.weight". rewrite X, L. repeat split; auto; try (simpl; tauto); exact (A _ "lora_up.weight").
Qed.

(** The lycoris layout: whatever the state dict holds under the names its config
    declares, every key raises, because its converter asks for kohya names. *)
Theorem C44_lycoris_refuted : forall bases b, In b bases ->
  let l := mk_lyco b "lycoris" "lycoris" in
  In l (lyco_configs bases) /\
  forall sd, (forall x, ~ In x (lyco_keys l) -> sd x = Err (StateDictKeyError x)) ->
  forall k, exists x, lora_converter bases l sd k = Err (StateDictKeyError x).
Proof.
  intros bases b Hb l.
  assert (Hl : In l (lyco_configs bases)).
  { unfold lyco_configs. apply in_flat_map. exists b; split; auto. left; reflexivity. }
  split; auto. intros sd H k. rewrite (converter_reads bases l Hl).
  destruct (suffixed "bias" k); [eauto|].
  exists (("lora_" ++ l2s (flat_name k)) ++ ".alpha")%string.
  unfold compose_lora. rewrite !cat2, H; [reflexivity|].
  intros X. apply lyco_keys_In in X as (e & s & _ & _ & _ & _ & X). cbn in X. discriminate.
Qed.

(** No two keys of a builtin config share a name in a layout, so every composed
    key has its own three entries. *)
Definition named (e : key_entry) : bool := negb (suffixed "bias" (ke_key e)) && is_floating (Some (ke_dtype e)).
Definition names_distinct (c : yaml_config) : bool :=
  nodupb (map (fun k => l2s (flat_name k)) (map ke_key (filter named (entries c)))).
Definition builtin_configs : list yaml_config :=
  [DataSd1Ldm.config; DataSd1Kohya.config; DataSdxlSgm.config; DataSdxlKohya.config; DataSdxlDiffusers.config;
   DataSd1Blocks.config; DataSdxlBlocks.config; DataFlux.config; DataFluxDiffuser.config; DataSd3.config].
Lemma builtin_names_distinct : forallb names_distinct builtin_configs = true.
Proof. vm_cast_no_check (eq_refl true). Qed.

Lemma names_distinct_spec : forall c p, names_distinct c = true ->
  forall e e' n, In e (entries c) -> In e' (entries c) ->
    suffixed "bias" (ke_key e) = false -> suffixed "bias" (ke_key e') = false ->
    is_floating (Some (ke_dtype e)) = true -> is_floating (Some (ke_dtype e')) = true ->
    lora_name p (ke_key e) n -> lora_name p (ke_key e') n -> ke_key e = ke_key e'.
Proof.
  intros c p H e e' n He He' B B' F F' L L'. apply nodupb_NoDup in H.
  apply lora_name_unique in L. apply lora_name_unique in L'.
  assert (X : forall e, In e (entries c) -> suffixed "bias" (ke_key e) = false -> is_floating (Some (ke_dtype e)) = true ->
              In (ke_key e) (map ke_key (filter named (entries c)))).
  { intros f Hf Bf Ff. apply in_map. apply filter_In; split; auto. unfold named. rewrite Bf, Ff; reflexivity. }
  apply (NoDup_map_inj (fun k => l2s (flat_name k)) (map ke_key (filter named (entries c)))); auto.
  rewrite L in L'. apply append_inj_l in L'. apply append_inj_l in L'. exact L'.
Qed.
Theorem C44_names_distinct : forall c, In c builtin_configs -> forall p e e' n,
  In e (entries c) -> In e' (entries c) ->
  suffixed "bias" (ke_key e) = false -> suffixed "bias" (ke_key e') = false ->
  is_floating (Some (ke_dtype e)) = true -> is_floating (Some (ke_dtype e')) = true ->
  lora_name p (ke_key e) n -> lora_name p (ke_key e') n -> ke_key e = ke_key e'.
Proof.
  intros c Hc p. apply names_distinct_spec. exact (proj1 (forallb_forall _ _) builtin_names_distinct c Hc).
Qed.

Example C44_applies :
  In DataSd1Blocks.config builtin_configs /\
  suffixed "bias" "model.diffusion_model.out.0.weight" = false /\
  lora_name "lora" "model.diffusion_model.out.0.weight" "lora_model_diffusion_model_out_0" /\
  existsb (String.eqb "lycoris_BASE.alpha") (lyco_keys (mk_lyco DataSd1Blocks.config "lycoris" "lycoris")) = true.
Proof.
  split; [|split; [|split]].
  - unfold builtin_configs. simpl In. tauto.
  - reflexivity.
  - exists [word "model"; word "diffusion_model"; word "out"; word "0"]. split; [left|reflexivity].
    repeat split; [discriminate|]. intros w H.
    repeat (destruct H as [<-|H]; [simpl; intuition discriminate|]). destruct H.
  - vm_cast_no_check (eq_refl true).
Qed.
Print Assumptions C56_lora_linear.
Print Assumptions C56_lora_conv.
Print Assumptions C56_lora_errors.
Print Assumptions C44_kohya_partial.
Print Assumptions C44_lycoris_refuted.
Print Assumptions C44_names_distinct.
