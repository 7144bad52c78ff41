(** Theorems for C38, C39 and C65. *)
From Coq Require Import String Ascii List Bool Arith ZArith Lia.
From Verif Require Import Base ModelRecipe ModelOps ModelConvert SpecConvert ConvertProofs.
Import ListNotations.
Open Scope string_scope.
Open Scope list_scope.
Open Scope nat_scope.

Lemma dijkstra_chains : forall cs a b,
  (a = b \/ known cs a /\ known cs b ->
   (exists l, dijkstra (converter_paths cs) a b = Ok (Some l) /\ chain cs a b l /\ forall l', chain cs a b l' -> length l <= length l') \/
   (dijkstra (converter_paths cs) a b = Ok None /\ forall l, ~ chain cs a b l)) /\
  (a <> b -> ~ (known cs a /\ known cs b) -> dijkstra (converter_paths cs) a b = Err KeyError).
Proof.
  intros cs a b. destruct (dijkstra_spec _ a b (paths_closed cs)) as (D1 & D2). destruct (paths_spec cs) as (_ & P). rewrite !P in D1, D2.
  split; auto. intros H. destruct (D1 H) as [(l & L1 & L2 & L3)|(L1 & L2)]; [left; exists l|right]; split; auto.
  - split; [apply walk_chain; auto|]. intros l' H'. apply L3. apply walk_chain; auto.
  - intros l H'. apply (L2 l). apply walk_chain; auto.
Qed.

Lemma apply_all_applied : forall E ids x, applied E ids x (apply_all E ids x).
Proof.
  intros E; induction ids as [|m ids IH]; intros x; cbn [apply_all]; [constructor|].
  destruct (call E m [x]) as [y|e] eqn:C; cbn [bind].
  - eapply applied_then; eauto.
  - apply applied_fails; auto.
Qed.

(** Whenever some chain of converters leads from the recipe's config to the
    target, [convert] applies one of minimal length to the recipe. *)
Theorem C38_convert_applies_a_shortest_chain : forall E cs recipe src tgt,
  src <> "structural" -> (exists ids, chain cs src tgt ids) ->
  exists ids, chain cs src tgt ids /\ (forall ids', chain cs src tgt ids' -> length ids <= length ids') /\
    applied E ids recipe (convert E cs recipe src tgt).
Proof.
  intros E cs recipe src tgt Hs (ids0 & H0). destruct (dijkstra_chains cs src tgt) as (D & _).
  destruct (D (chain_known _ _ _ _ H0)) as [(l & L1 & L2 & L3)|(_ & L)]; [|exfalso; eapply L; eauto].
  exists l. split; auto. split; auto. unfold convert, conversion_recipe. destruct (String.eqb_spec src "structural"); [congruence|].
  rewrite L1. cbn [bind]. pose proof (apply_all_applied E l recipe) as A. destruct (apply_all E l recipe); auto.
Qed.

(** With the signatures converters have, and a recipe of the source config in any
    merge space, the result is those converters nested around the recipe; it has
    the target config and the merge space of the recipe. *)
Lemma call_conv : forall E m a b x s, resolve_method E m = Ok (conv_sig a b) -> is_node x = true ->
  node_space E x = Ok s -> In s all_spaces -> node_config E x = Ok (Some a) ->
  call E m [x] = Ok (VMerge m [x] []) /\ node_space E (VMerge m [x] []) = Ok s /\
  node_config E (VMerge m [x] []) = Ok (Some b).
Proof.
  intros E m a b x s Hm Hx Hs Hin Hc.
  assert (M : mem_str s all_spaces = true).
  { unfold mem_str. apply existsb_exists. exists s. split; auto. apply String.eqb_refl. }
  assert (S : return_space (conv_sig a b) [s] [] = Ok s).
  { unfold return_space, space_pairs. cbn -[mem_str all_spaces]. rewrite M. reflexivity. }
  split; [|split].
  - unfold call. rewrite Hm. cbn [bind]. unfold create_recipe, bind_call, conv_sig, convert_args, convert_kwargs.
    cbn -[return_space value_to_node node_space]. unfold value_to_node. rewrite Hx. cbn -[return_space node_space].
    rewrite Hs. cbn -[return_space]. change (Sig _ _ _ _ _ _ _ _) with (conv_sig a b). rewrite S. reflexivity.
  - cbn -[return_space resolve_method]. rewrite Hm. cbn -[return_space]. rewrite Hs. cbn -[return_space]. exact S.
  - cbn -[return_config resolve_method]. rewrite Hm. cbn -[return_config]. rewrite Hc. cbn -[return_config].
    unfold return_config, config_pairs. cbn. rewrite String.eqb_refl. reflexivity.
Qed.
Lemma nested_node : forall ids x, is_node x = true -> is_node (nested ids x) = true.
Proof. unfold nested; induction ids as [|m ids IH]; intros x H; simpl; auto. Qed.
Lemma applied_nested : forall E cs, (forall c, In c cs -> resolve_method E (c_id c) = Ok (conv_sig (c_src c) (c_tgt c))) ->
  forall src tgt ids, chain cs src tgt ids -> forall x s r, is_node x = true -> node_space E x = Ok s -> In s all_spaces ->
  node_config E x = Ok (Some src) -> applied E ids x r ->
  r = Ok (nested ids x) /\ node_space E (nested ids x) = Ok s /\ node_config E (nested ids x) = Ok (Some tgt).
Proof.
  intros E cs Hcs src tgt ids H. induction H as [a|c b ids Hc H IH]; intros x s r Hx Hs Hin Hcf A.
  - inversion A; subst; auto.
  - destruct (call_conv E (c_id c) (c_src c) (c_tgt c) x s (Hcs c Hc) Hx Hs Hin Hcf) as (C1 & C2 & C3).
    inversion A as [|m l y e Ce|m l y z r' Cy A']; subst; [congruence|].
    rewrite C1 in Cy. injection Cy as <-.
    change (nested (c_id c :: ids) x) with (nested ids (VMerge (c_id c) [x] [])). eapply IH; eauto.
Qed.
Theorem C38_converted_recipe : forall E cs recipe src tgt s,
  src <> "structural" -> (exists ids, chain cs src tgt ids) ->
  (forall c, In c cs -> resolve_method E (c_id c) = Ok (conv_sig (c_src c) (c_tgt c))) ->
  is_node recipe = true -> node_space E recipe = Ok s -> In s all_spaces -> node_config E recipe = Ok (Some src) ->
  exists ids, chain cs src tgt ids /\ (forall ids', chain cs src tgt ids' -> length ids <= length ids') /\
    convert E cs recipe src tgt = Ok (nested ids recipe) /\
    node_space E (nested ids recipe) = Ok s /\ node_config E (nested ids recipe) = Ok (Some tgt).
Proof.
  intros E cs recipe src tgt s Hs He Hcs Hn Hsp Hin Hc.
  destruct (C38_convert_applies_a_shortest_chain E cs recipe src tgt Hs He) as (ids & C & M & A).
  exists ids. split; auto. split; auto. eapply applied_nested; eauto.
Qed.

(** A recipe that already has the target config is returned as it is. *)
Theorem C38_same_config_is_identity : forall E cs recipe cfg, cfg <> "structural" -> convert E cs recipe cfg cfg = Ok recipe.
Proof.
  intros E cs recipe cfg H. destruct (C38_convert_applies_a_shortest_chain E cs recipe cfg cfg H) as (ids & _ & Hm & A); [exists []; constructor|].
  specialize (Hm [] (chain_nil cs cfg)). destruct ids; [inversion A; auto|simpl in Hm; lia].
Qed.

(** Without a chain it raises. *)
Theorem C38_no_chain_raises : forall E cs recipe src tgt, (forall ids, ~ chain cs src tgt ids) ->
  exists e, convert E cs recipe src tgt = Err e.
Proof.
  intros E cs recipe src tgt H. unfold convert, conversion_recipe. destruct (String.eqb src "structural"); eauto.
  destruct (dijkstra_chains cs src tgt) as (D1 & D2).
  assert (Hne : src <> tgt) by (intros ->; apply (H []); constructor).
  assert (Dec : (known cs src /\ known cs tgt) \/ ~ (known cs src /\ known cs tgt)).
  { destruct (paths_spec cs) as (_ & P). rewrite <- !P.
    destruct (in_dec string_dec src (map fst (converter_paths cs))), (in_dec string_dec tgt (map fst (converter_paths cs))); tauto. }
  destruct Dec as [K|K].
  - destruct (D1 (or_intror K)) as [(l & _ & L & _)|(L & _)]; [exfalso; eapply H; eauto|]. rewrite L. cbn [bind]. eauto.
  - rewrite (D2 Hne K). cbn [bind]. eauto.
Qed.

(** C39, full statement: whenever no conversion exists [convert] raises
    ValueError.  Refuted: a config that no converter mentions gives KeyError. *)
Definition cs0 : list converter :=
  [Converter "sd1-kohya" "sd1-ldm" "convert_sd1_kohya"; Converter "sd1-ldm" "sd1-blocks" "to_blocks"; Converter "sdxl-kohya" "sdxl-sgm" "convert_sdxl_kohya"].
Definition E_none : env := Env [] [] [].
Theorem C39_missing_conversion_is_ValueError_refuted : exists cs recipe src tgt,
  src <> "structural" /\ (forall ids, ~ chain cs src tgt ids) /\ convert E_none cs recipe src tgt = Err KeyError.
Proof.
  exists cs0, (VModel "x" (Some "sd3-sgm") "weight"), "sd3-sgm", "sd1-ldm". split; [discriminate|]. split; [|reflexivity].
  intros ids H. apply chain_known in H as [X|((c & Hc & X) & _)]; [discriminate|].
  destruct Hc as [<-|[<-|[<-|[]]]]; simpl in X; destruct X; discriminate.
Qed.

(** What holds: ValueError when both configs occur in some converter, and
    KeyError exactly when one of them does not. *)
Theorem C39_missing_conversion_is_ValueError_partial : forall E cs recipe src tgt,
  src <> "structural" -> (forall ids, ~ chain cs src tgt ids) ->
  (known cs src /\ known cs tgt -> convert E cs recipe src tgt = Err ValueError) /\
  (~ (known cs src /\ known cs tgt) -> convert E cs recipe src tgt = Err KeyError).
Proof.
  intros E cs recipe src tgt Hs H. unfold convert, conversion_recipe. destruct (String.eqb_spec src "structural"); [congruence|].
  destruct (dijkstra_chains cs src tgt) as (D1 & D2).
  assert (Hne : src <> tgt) by (intros ->; apply (H []); constructor).
  split; intros K.
  - destruct (D1 (or_intror K)) as [(l & _ & L & _)|(L & _)]; [exfalso; eapply H; eauto|]. rewrite L. reflexivity.
  - rewrite (D2 Hne K). reflexivity.
Qed.

(** C65, full statement: a plain state dict is converted from the best inferred
    config that has a chain to the target.  Refuted: a better ranked config that
    no converter mentions makes the search fail with KeyError. *)
Theorem C65_state_dict_conversion_refuted : exists cs recipe candidates tgt,
  (exists c ids, In c candidates /\ chain cs c tgt ids) /\ convert_mapping E_none cs recipe candidates tgt = Err KeyError.
Proof.
  exists cs0, (VDict []), ["sd3-sgm"; "sd1-kohya"], "sd1-ldm". split; [|reflexivity].
  exists "sd1-kohya", ["convert_sd1_kohya"]. split; [simpl; auto|]. apply (chain_cons cs0 (Converter "sd1-kohya" "sd1-ldm" "convert_sd1_kohya")); [simpl; auto|]. constructor.
Qed.

Theorem C65_state_dict_conversion_partial : forall E cs recipe before c after tgt,
  (forall d, In d (before ++ [c]) -> known cs d) -> known cs tgt ->
  (forall d ids, In d before -> ~ chain cs d tgt ids) -> (exists ids, chain cs c tgt ids) ->
  exists ids, chain cs c tgt ids /\ (forall ids', chain cs c tgt ids' -> length ids <= length ids') /\
    applied E ids recipe (convert_mapping E cs recipe (before ++ c :: after) tgt).
Proof.
  intros E cs recipe before c after tgt Kn Kt Hb (ids0 & H0). induction before as [|d before IH]; simpl.
  - destruct (dijkstra_chains cs c tgt) as (D & _). destruct (D (chain_known _ _ _ _ H0)) as [(l & L1 & L2 & L3)|(_ & L)]; [|exfalso; eapply L; eauto].
    exists l. split; auto. split; auto. unfold conversion_recipe. rewrite L1. cbn [bind].
    pose proof (apply_all_applied E l recipe) as A. destruct (apply_all E l recipe); auto.
  - destruct IH as (ids & I1 & I2 & I3).
    { intros x Hx. apply Kn. right; auto. }
    { intros x ids Hx. apply Hb. right; auto. }
    exists ids. split; auto. split; auto. unfold conversion_recipe at 1.
    destruct (dijkstra_chains cs d tgt) as (D & _). destruct D as [(l & _ & L & _)|(L & _)].
    + right. split; auto. apply Kn. left; auto.
    + exfalso. eapply Hb; [left; reflexivity|eauto].
    + rewrite L. exact I3.
Qed.

(** and when none of the inferred configs has a chain, it raises ValueError; the recipe is never returned as it was *)
Theorem C65_no_chain_raises_partial : forall E cs recipe candidates tgt,
  (forall d, In d candidates -> known cs d) -> known cs tgt ->
  (forall d ids, In d candidates -> ~ chain cs d tgt ids) ->
  convert_mapping E cs recipe candidates tgt = Err ValueError.
Proof.
  intros E cs recipe candidates tgt Kn Kt Hb. induction candidates as [|d l IH]; simpl; [reflexivity|].
  unfold conversion_recipe. destruct (dijkstra_chains cs d tgt) as (D & _). destruct D as [(p & _ & L & _)|(L & _)].
  - right. split; auto. apply Kn. left; auto.
  - exfalso. eapply Hb; [left; reflexivity|eauto].
  - rewrite L. cbn [bind]. apply IH; intros; [apply Kn; right; auto|apply Hb; right; auto].
Qed.
Example C65_no_chain_case : convert_mapping E_none cs0 (VDict []) ["sd1-ldm"] "sd1-kohya" = Err ValueError /\ known cs0 "sd1-ldm" /\ known cs0 "sd1-kohya".
Proof. split; [reflexivity|]. split; exists (Converter "sd1-kohya" "sd1-ldm" "convert_sd1_kohya"); simpl; auto. Qed.

(** Among several chains the shortest is taken, in a graph with a cycle. *)
Definition cs1 : list converter := [Converter "a" "b" "ab"; Converter "b" "a" "ba"; Converter "b" "c" "bc"; Converter "c" "d" "cd"; Converter "a" "c" "ac"].
Definition E1 : env := Env [("ab", conv_sig "a" "b"); ("ba", conv_sig "b" "a"); ("bc", conv_sig "b" "c"); ("cd", conv_sig "c" "d"); ("ac", conv_sig "a" "c")] ["a"; "b"; "c"; "d"] all_spaces.
Example C38_example : let m := VModel "x" (Some "a") "weight" in
  convert E1 cs1 m "a" "d" = Ok (VMerge "cd" [VMerge "ac" [m] []] []) /\ chain cs1 "a" "d" ["ab"; "bc"; "cd"] /\ chain cs1 "a" "d" ["ac"; "cd"] /\
  (forall ids, ~ chain cs1 "d" "a" ids) /\ convert E1 cs1 m "d" "a" = Err ValueError /\
  (forall c, In c cs1 -> resolve_method E1 (c_id c) = Ok (conv_sig (c_src c) (c_tgt c))).
Proof.
  assert (A : forall x, In x cs1 -> forall b l, chain cs1 (c_tgt x) b l -> chain cs1 (c_src x) b (c_id x :: l)) by (intros; constructor; auto).
  split; [reflexivity|]. split; [|split; [|split; [|split; [reflexivity|]]]].
  - apply (A (Converter "a" "b" "ab")); [simpl; auto|]. apply (A (Converter "b" "c" "bc")); [simpl; auto|]. apply (A (Converter "c" "d" "cd")); [simpl; auto|]. constructor.
  - apply (A (Converter "a" "c" "ac")); [simpl; auto 10|]. apply (A (Converter "c" "d" "cd")); [simpl; auto|]. constructor.
  - intros ids H. inversion H as [|c b l Hc _ E3 E4 E5]. destruct Hc as [<-|[<-|[<-|[<-|[<-|[]]]]]]; discriminate.
  - intros c Hc. destruct Hc as [<-|[<-|[<-|[<-|[<-|[]]]]]]; reflexivity.
Qed.

(** All outcomes for a plain state dict: the candidates that are known and have
    no chain are passed over; the next one is converted from, or gives KeyError;
    ValueError when none is left. *)
Definition passed_over (cs : list converter) (tgt d : string) : Prop :=
  (known cs d /\ known cs tgt) /\ forall ids, ~ chain cs d tgt ids.
Theorem C65_outcome : forall E cs recipe candidates tgt,
  (exists before c after, candidates = before ++ c :: after /\ (forall d, In d before -> passed_over cs tgt d) /\
     ((exists ids, chain cs c tgt ids /\ (forall ids', chain cs c tgt ids' -> length ids <= length ids') /\
         applied E ids recipe (convert_mapping E cs recipe candidates tgt)) \/
      (c <> tgt /\ ~ (known cs c /\ known cs tgt) /\ convert_mapping E cs recipe candidates tgt = Err KeyError))) \/
  ((forall d, In d candidates -> passed_over cs tgt d) /\ convert_mapping E cs recipe candidates tgt = Err ValueError).
Proof.
  intros E cs recipe candidates tgt. induction candidates as [|d l IH]; [right; split; [intros ? []|reflexivity]|].
  destruct (dijkstra_chains cs d tgt) as (D1 & D2).
  assert (Dec : (known cs d /\ known cs tgt) \/ ~ (known cs d /\ known cs tgt)).
  { destruct (paths_spec cs) as (_ & P). rewrite <- !P.
    destruct (in_dec string_dec d (map fst (converter_paths cs))), (in_dec string_dec tgt (map fst (converter_paths cs))); tauto. }
  cbn [convert_mapping]. unfold conversion_recipe at 1 2 3.
  assert (S : (d = tgt \/ known cs d /\ known cs tgt) \/ (d <> tgt /\ ~ (known cs d /\ known cs tgt))).
  { destruct (string_dec d tgt); tauto. }
  destruct S as [K|(Hne & K)].
  - destruct (D1 K) as [(p & L1 & L2 & L3)|(L & N)].
    + left. exists [], d, l. split; [reflexivity|]. split; [intros ? []|]. left. exists p. split; auto. split; auto.
      rewrite L1. cbn [bind]. pose proof (apply_all_applied E p recipe) as A. destruct (apply_all E p recipe); auto.
    + assert (PO : passed_over cs tgt d).
      { split; [|exact N]. destruct K as [->|K]; [|exact K]. exfalso. apply (N []). constructor. }
      rewrite L. cbn [bind]. destruct IH as [(b & c & a & -> & B & R)|(B & R)].
      * left. exists (d :: b), c, a. split; [reflexivity|]. split; [|exact R]. intros x [<-|X]; auto.
      * right. split; [|exact R]. intros x [<-|X]; auto.
  - left. exists [], d, l. split; [reflexivity|]. split; [intros ? []|]. right. split; auto. split; auto.
    rewrite (D2 Hne K). reflexivity.
Qed.
(** the three outcomes: the second candidate is used, a candidate no converter mentions, no candidate left *)
Example C65_outcome_case : let sd := VDict [("k", VTensor 0)] in
  convert_mapping E1 cs1 sd ["d"; "b"; "a"] "c" = Ok (VMerge "bc" [VLit sd None "param"] []) /\
  passed_over cs1 "c" "d" /\ chain cs1 "b" "c" ["bc"] /\
  convert_mapping E1 cs1 sd ["d"; "e"; "b"] "c" = Err KeyError /\
  convert_mapping E1 cs1 sd ["d"] "c" = Err ValueError.
Proof.
  split; [vm_compute; reflexivity|].
  split; [|split; [|split; reflexivity]].
  - split.
    + split; [exists (Converter "c" "d" "cd")|exists (Converter "b" "c" "bc")]; simpl; auto 10.
    + intros ids H. inversion H as [|c b l Hc _ E3 E4 E5]. destruct Hc as [<-|[<-|[<-|[<-|[<-|[]]]]]]; discriminate.
  - apply (chain_cons cs1 (Converter "b" "c" "bc")); [simpl; auto|]. constructor.
Qed.

(** A state dict of tensors that has to be converted becomes a recipe of the target config in merge space "param",
    not "weight". *)
Lemma call_dict : forall E m a b sd, resolve_method E m = Ok (conv_sig a b) -> (forall k v, In (k, v) sd -> exists n, v = VTensor n) ->
  let x := VLit (VDict sd) None "param" in
  call E m [VDict sd] = Ok (VMerge m [x] []) /\ node_space E (VMerge m [x] []) = Ok "param" /\
  node_config E (VMerge m [x] []) = Ok (Some b).
Proof.
  intros E m a b sd Hm T x.
  assert (S : return_space (conv_sig a b) ["param"] [] = Ok "param") by reflexivity.
  assert (V : value_to_node E (VDict sd) true = Ok x).
  { unfold x. destruct sd as [|[k v] sd]; [reflexivity|]. destruct (T k v (or_introl eq_refl)) as (n & ->).
    unfold value_to_node. cbn [is_node].
    assert (F : forallb (fun kv => same_kind (VTensor n) (snd kv)) ((k, VTensor n) :: sd) = true).
    { apply forallb_forall. intros [k' v'] I. destruct (T k' v' I) as (n' & ->). reflexivity. }
    rewrite F. reflexivity. }
  split; [|split].
  - unfold call. rewrite Hm. cbn [bind]. unfold create_recipe, bind_call, conv_sig, convert_args, convert_kwargs.
    cbn -[return_space value_to_node node_space]. rewrite V. cbn -[return_space node_space]. unfold x at 1.
    cbn -[return_space]. change (Sig _ _ _ _ _ _ _ _) with (conv_sig a b). rewrite S. reflexivity.
  - cbn -[return_space resolve_method]. rewrite Hm. cbn -[return_space]. exact S.
  - cbn -[return_config resolve_method]. rewrite Hm. cbn -[return_config]. reflexivity.
Qed.
Theorem C65_space : forall E cs sd before c after tgt,
  (forall k v, In (k, v) sd -> exists n, v = VTensor n) ->
  (forall x, In x cs -> resolve_method E (c_id x) = Ok (conv_sig (c_src x) (c_tgt x))) ->
  (forall d, In d before -> passed_over cs tgt d) -> c <> tgt -> (exists ids, chain cs c tgt ids) ->
  exists ids, let r := nested ids (VLit (VDict sd) None "param") in
    chain cs c tgt ids /\ (forall ids', chain cs c tgt ids' -> length ids <= length ids') /\
    convert_mapping E cs (VDict sd) (before ++ c :: after) tgt = Ok r /\
    node_space E r = Ok "param" /\ node_config E r = Ok (Some tgt).
Proof.
  intros E cs sd before c after tgt T Hcs Hb Hne (ids0 & H0).
  assert (K : known cs c /\ known cs tgt) by (destruct (chain_known _ _ _ _ H0); tauto).
  destruct (C65_state_dict_conversion_partial E cs (VDict sd) before c after tgt) as (ids & I1 & I2 & I3); eauto.
  { intros d I. apply in_app_iff in I as [I|[<-|[]]]; [apply (Hb d I)|tauto]. }
  { tauto. }
  { intros d ids I. apply (Hb d I). }
  exists ids. split; auto. split; auto.
  destruct I1 as [a|x b ids Hx H]; [congruence|].
  destruct (call_dict E (c_id x) (c_src x) (c_tgt x) sd (Hcs x Hx) T) as (C1 & C2 & C3).
  inversion I3 as [|m l y e Ce|m l y z r' Cy A']; subst; [congruence|].
  rewrite C1 in Cy. injection Cy as <-.
  change (nested (c_id x :: ids) ?q) with (nested ids (VMerge (c_id x) [q] [])).
  eapply applied_nested; eauto. simpl. auto.
Qed.
(** so it cannot be added to a model in weight space *)
Definition E_mix : env := Env (("weighted_sum", Sig [("a", Param PNone None false true); ("b", Param PNone None false true)] [] None [] [] RNone None all_spaces)
  :: [("bc", conv_sig "b" "c")]) ["b"; "c"] all_spaces.
Example C65_space_case : exists r,
  convert_mapping E_mix [Converter "b" "c" "bc"] (VDict [("k", VTensor 0)]) ["b"] "c" = Ok r /\
  node_space E_mix r = Ok "param" /\ node_config E_mix r = Ok (Some "c") /\
  call E_mix "weighted_sum" [r; VModel "x" (Some "c") "param"] = Ok (VMerge "weighted_sum" [r; VModel "x" (Some "c") "param"] []) /\
  call E_mix "weighted_sum" [r; VModel "x" (Some "c") "weight"] = Err TypeError.
Proof. eexists. repeat split; reflexivity. Qed.

(** What is given as the recipe: a path raises TypeError, and a number, a string, None or a tensor
    AttributeError, whatever the target is; a literal made of one of these too, unless it was given a config. *)
Definition plain_value (v : pyobj) : Prop :=
  match v with VStr _ | VInt _ | VFloat _ | VBool _ | VNone | VTensor _ => True | _ => False end.
Theorem C38_values : forall E cs opened candidates tgt,
  (forall p, convert_value E cs opened (VPath p) candidates tgt = Err TypeError) /\
  (forall v, plain_value v -> convert_value E cs opened v candidates tgt = Err AttributeError) /\
  (forall v s, plain_value v -> convert_value E cs opened (VLit v None s) candidates tgt = Err AttributeError) /\
  (forall v c s, plain_value v -> c <> "structural" -> convert_value E cs opened (VLit v (Some c) s) candidates c = Ok (VLit v (Some c) s)).
Proof.
  intros E cs opened candidates tgt. split; [reflexivity|]. split; [intros v H; destruct v; try destruct H; reflexivity|].
  split; [intros v s H; destruct v; try destruct H; reflexivity|].
  intros v c s H N. rewrite <- (C38_same_config_is_identity E cs (VLit v (Some c) s) c N). destruct v; try destruct H; reflexivity.
Qed.
(** A recipe is converted from the config it has while its inputs are open; when they cannot be opened,
    or have no config, it raises. *)
Theorem C38_recipe : forall E cs opened m args kwargs path cfg s candidates tgt recipe,
  recipe = VModel path cfg s \/ recipe = VMerge m args kwargs ->
  (forall e, opened recipe = Err e -> convert_value E cs opened recipe candidates tgt = Err e) /\
  (opened recipe = Ok None -> convert_value E cs opened recipe candidates tgt = Err AttributeError) /\
  (opened recipe = Ok (Some "structural") -> convert_value E cs opened recipe candidates tgt = Err ValueError) /\
  (forall src, opened recipe = Ok (Some src) -> src <> "structural" -> (exists ids, chain cs src tgt ids) ->
    exists ids, chain cs src tgt ids /\ (forall ids', chain cs src tgt ids' -> length ids <= length ids') /\
      applied E ids recipe (convert_value E cs opened recipe candidates tgt)) /\
  (forall src, opened recipe = Ok (Some src) -> (forall ids, ~ chain cs src tgt ids) ->
    exists e, convert_value E cs opened recipe candidates tgt = Err e).
Proof.
  intros E cs opened m args kwargs path cfg s candidates tgt recipe H.
  assert (Q : convert_value E cs opened recipe candidates tgt =
              (let* c := opened recipe in match c with Some src => convert E cs recipe src tgt | None => Err AttributeError end))
    by (destruct H as [-> | ->]; reflexivity).
  rewrite Q. split; [intros e O; rewrite O; reflexivity|]. split; [intros O; rewrite O; reflexivity|]. split; [intros O; rewrite O; reflexivity|].
  split.
  - intros src O N C. rewrite O. cbn [bind]. apply C38_convert_applies_a_shortest_chain; auto.
  - intros src O N. rewrite O. cbn [bind]. apply C38_no_chain_raises; auto.
Qed.
Example C38_values_case :
  let opened n := match n with VModel "missing" _ _ => Err FileNotFoundError | VModel _ c _ => Ok c | _ => Ok None end in
  let to_d x := convert_value E1 cs1 opened x [] "d" in
  to_d (VModel "x" (Some "a") "weight") = Ok (VMerge "cd" [VMerge "ac" [VModel "x" (Some "a") "weight"] []] []) /\
  to_d (VModel "missing" (Some "a") "weight") = Err FileNotFoundError /\
  to_d (VModel "x" (Some "d") "weight") = Ok (VModel "x" (Some "d") "weight") /\
  to_d (VPath "x") = Err TypeError /\ to_d (VStr "x") = Err AttributeError /\ to_d (VInt 3%Z) = Err AttributeError.
Proof. repeat split; reflexivity. Qed.

Print Assumptions C38_convert_applies_a_shortest_chain.
Print Assumptions C38_converted_recipe.
Print Assumptions C38_same_config_is_identity.
Print Assumptions C38_no_chain_raises.
Print Assumptions C39_missing_conversion_is_ValueError_refuted.
Print Assumptions C39_missing_conversion_is_ValueError_partial.
Print Assumptions C65_state_dict_conversion_refuted.
Print Assumptions C65_state_dict_conversion_partial.
Print Assumptions C65_no_chain_raises_partial.
Print Assumptions C65_outcome.
Print Assumptions C65_space.
Print Assumptions C38_values.
Print Assumptions C38_recipe.
