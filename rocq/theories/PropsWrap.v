(** C58: the exported wrappers build recipes.  Read with ModelWrap.v. *)
From Coq Require Import String Ascii List Bool Arith ZArith Lia.
From Verif Require Import Base ModelRecipe ModelOps SerialProofs2 PropsRecipe ModelWrap.
Import ListNotations.
Open Scope string_scope.
Open Scope list_scope.
Open Scope nat_scope.

(** the registry has the built-in methods *)
Definition has_methods (E : env) : Prop := forall m g, In (m, g) builtin_sigs -> resolve_method E m = Ok g.
(** [x] is a recipe in merge space [s] *)
Definition recipe_in (E : env) (s : string) (x : pyobj) : Prop := is_node x = true /\ node_space E x = Ok s.
(** [v] is accepted as a number or tensor parameter, as the recipe [n] *)
Definition parameter (E : env) (v n : pyobj) : Prop :=
  (forall b, value_to_node E v b = Ok n) /\ node_space E n = Ok "param".

(** ** The methods *)
Ltac prep H := unfold create_recipe; rewrite H; cbn [bind fst snd].

Lemma created : forall E m g args kw bargs bkw nargs nkw sa sk s, dget String.eqb m builtin_sigs = Some g -> has_methods E ->
  bind_call g args kw = Ok (bargs, bkw) -> convert_args E g bargs = Ok nargs -> convert_kwargs E g bkw = Ok nkw ->
  map_res (node_space E) nargs = Ok sa -> map_kres (node_space E) nkw = Ok sk -> return_space g sa sk = Ok s ->
  method E m args kw = Ok (VMerge m nargs nkw) /\ recipe_in E s (VMerge m nargs nkw).
Proof.
  intros E m g args kw bargs bkw nargs nkw sa sk s Hm HE Hb Ha Hk Hsa Hsk Hs. split.
  - unfold method. rewrite Hm. unfold create_recipe. rewrite Hb. cbn [bind fst snd]. rewrite Ha; cbn [bind]. rewrite Hk; cbn [bind].
    rewrite Hsa; cbn [bind]. rewrite Hsk; cbn [bind]. rewrite Hs; reflexivity.
  - split; [reflexivity|]. cbn [node_space].
    rewrite (HE m g) by (apply (dget_In String.eqb String.eqb_spec); auto). cbn [bind].
    fold (node_space E). rewrite Hsa; cbn [bind]. rewrite Hsk; cbn [bind]. exact Hs.
Qed.
Lemma sub_ok : forall E x y, has_methods E -> recipe_in E "weight" x -> recipe_in E "weight" y ->
  method E "subtract" [x; y] [] = Ok (VMerge "subtract" [x; y] []) /\ recipe_in E "delta" (VMerge "subtract" [x; y] []).
Proof.
  intros E x y HE (Nx & Sx) (Ny & Sy). eapply created; eauto; try reflexivity.
  - unfold convert_args. cbn -[value_to_node]. rewrite !value_to_node_node by auto. reflexivity.
  - cbn -[node_space]. rewrite Sx, Sy. reflexivity.
  - reflexivity.
Qed.
Lemma param_node : forall E v n b, parameter E v n -> value_to_node E v b = Ok n.
Proof. intros E v n b (H & _); auto. Qed.
Lemma float_param : forall E s, parameter E (VFloat s) (VLit (VFloat s) None "param").
Proof. intros E s; split; reflexivity. Qed.

Lemma add_ok : forall E x y v n, has_methods E -> recipe_in E "weight" x -> recipe_in E "delta" y -> parameter E v n ->
  method E "add_difference" [x; y] [("alpha", v)] = Ok (VMerge "add_difference" [x; y; n] []) /\
  recipe_in E "weight" (VMerge "add_difference" [x; y; n] []).
Proof.
  intros E x y v n HE (Nx & Sx) (Ny & Sy) Pv. eapply created; eauto; try reflexivity.
  - unfold convert_args. cbn -[value_to_node]. rewrite !value_to_node_node by auto. rewrite (param_node E v n true Pv). reflexivity.
  - cbn -[node_space]. rewrite Sx, Sy, (proj2 Pv). reflexivity.
  - reflexivity.
Qed.
Lemma perp_ok : forall E x y, has_methods E -> recipe_in E "delta" x -> recipe_in E "delta" y ->
  method E "perpendicular_component" [x; y] [] = Ok (VMerge "perpendicular_component" [x; y] []) /\
  recipe_in E "delta" (VMerge "perpendicular_component" [x; y] []).
Proof.
  intros E x y HE (Nx & Sx) (Ny & Sy). eapply created; eauto; try reflexivity.
  - unfold convert_args. cbn -[value_to_node]. rewrite !value_to_node_node by auto. reflexivity.
  - cbn -[node_space]. rewrite Sx, Sy. reflexivity.
  - reflexivity.
Qed.
Lemma region_ok : forall E m x y w o nw no s, (m = "tensor_sum" \/ m = "top_k_tensor_sum") -> has_methods E -> In s all_spaces ->
  recipe_in E s x -> recipe_in E s y -> parameter E w nw -> parameter E o no ->
  method E m [x; y] [("width", w); ("offset", o)] = Ok (VMerge m [x; y; nw; no] []) /\
  recipe_in E s (VMerge m [x; y; nw; no] []).
Proof.
  intros E m x y w o nw no s Hm HE Hs (Nx & Sx) (Ny & Sy) Pw Po.
  assert (M : mem_str s all_spaces = true) by (apply BindProofs.mem_str_In; auto).
  destruct Hm as [->| ->]; (eapply created; eauto; try reflexivity;
    [ unfold convert_args; cbn -[value_to_node]; rewrite !value_to_node_node by auto;
      rewrite (param_node E w nw false Pw); cbn [bind]; rewrite (param_node E o no false Po); reflexivity
    | cbn -[node_space]; rewrite Sx, Sy, (proj2 Pw), (proj2 Po); reflexivity
    | unfold return_space, space_pairs; cbn -[mem_str all_spaces String.eqb]; rewrite M; cbn -[mem_str all_spaces String.eqb];
      rewrite ?M; cbn -[mem_str all_spaces String.eqb]; rewrite String.eqb_refl; reflexivity ]).
Qed.
Lemma rotate_ok : forall E x y w o nw no s, has_methods E -> In s all_spaces ->
  recipe_in E s x -> recipe_in E s y -> parameter E w nw -> parameter E o no ->
  method E "rotate" [x; y] [("alignment", w); ("alpha", o)] = Ok (VMerge "rotate" [x; y; nw; no] []) /\
  recipe_in E s (VMerge "rotate" [x; y; nw; no] []).
Proof.
  intros E x y w o nw no s HE Hs (Nx & Sx) (Ny & Sy) Pw Po.
  assert (M : mem_str s all_spaces = true) by (apply BindProofs.mem_str_In; auto).
  eapply created; eauto; try reflexivity.
  - unfold convert_args; cbn -[value_to_node]; rewrite !value_to_node_node by auto.
    rewrite (param_node E w nw false Pw); cbn [bind]; rewrite (param_node E o no true Po); reflexivity.
  - cbn -[node_space]; rewrite Sx, Sy, (proj2 Pw), (proj2 Po); reflexivity.
  - unfold return_space, space_pairs; cbn -[mem_str all_spaces String.eqb]; rewrite M; cbn -[mem_str all_spaces String.eqb].
    rewrite ?M; cbn -[mem_str all_spaces String.eqb]; rewrite String.eqb_refl; reflexivity.
Qed.
Definition zero_stiffness : pyobj := VLit (VFloat "0.0") None "param".
Lemma clamp_ok : forall E r x y, has_methods E -> recipe_in E "weight" r -> recipe_in E "weight" x -> recipe_in E "weight" y ->
  method E "clamp" [r; x; y] [] = Ok (VMerge "clamp" [r; x; y] [("stiffness", zero_stiffness)]).
Proof.
  intros E r x y HE (Nr & Sr) (Nx & Sx) (Ny & Sy).
  assert (G : method E "clamp" [r; x; y] [] = Ok (VMerge "clamp" [r; x; y] [("stiffness", zero_stiffness)]) /\
              recipe_in E "weight" (VMerge "clamp" [r; x; y] [("stiffness", zero_stiffness)])); [|tauto].
  eapply created; eauto; try reflexivity.
  - unfold convert_args. cbn -[value_to_node]. rewrite !value_to_node_node by auto. reflexivity.
  - cbn -[node_space]. rewrite Sr, Sx, Sy. reflexivity.
  - reflexivity.
Qed.

(** methods over any number of deltas *)
Lemma check_sets : forall l, (forall p a, In (p, a) l -> exists s, p = Some (PSet s) /\ mem_str a s = true) -> check_spaces l [] = Ok [].
Proof.
  induction l as [|[p a] l IH]; intros H; auto. cbn [check_spaces].
  destruct (H p a) as (s & -> & M); [left; auto|]. cbn [check_space]. rewrite M. cbn [bind]. apply IH. intros; apply H; right; auto.
Qed.
Lemma deltas_bind : forall defaults deltas kw, NoDup (map fst kw) ->
  bind_call (sig_deltas defaults) deltas kw =
  if forallb (fun kv => dmem String.eqb (fst kv) (named (map fst defaults))) kw
  then Ok (deltas, dupdate String.eqb defaults kw) else Err TypeError.
Proof.
  intros defaults deltas kw ND. unfold bind_call. cbn [sig_deltas g_args g_defaults g_vararg g_kw g_kwdefaults map length first_index sumb bind_args bind].
  rewrite Nat.add_0_r. cbn [Nat.sub Nat.ltb Nat.leb]. replace (length deltas <? 0) with false by (symmetry; apply Nat.ltb_ge; lia).
  cbn [orb app skipn bind]. rewrite (SerialProofs1.filter_all _ _ kw); [|apply forallb_forall; intros; reflexivity].
  destruct (forallb _ kw); cbn [negb]; auto.
  replace (forallb _ (named (map fst defaults))) with true; [reflexivity|].
  symmetry. apply forallb_forall. intros [k p] H. unfold named in H. apply in_map_iff in H as (k' & E & Hk). injection E as -> _.
  cbn [fst]. apply orb_true_iff. right. apply (dmem_In String.eqb String.eqb_spec); auto.
Qed.
Lemma named_get : forall ks k, In k ks -> dget String.eqb k (named ks) = Some number.
Proof.
  induction ks as [|x ks IH]; intros k []; simpl; destruct (String.eqb_spec k x); auto. congruence.
Qed.
Definition converted (E : env) (kw nkw : list (string * pyobj)) : Prop :=
  Forall2 (fun kv kn => fst kv = fst kn /\ parameter E (snd kv) (snd kn)) kw nkw.
Lemma deltas_ok : forall E m defaults deltas kw nkw, has_methods E -> dget String.eqb m builtin_sigs = Some (sig_deltas defaults) ->
  Forall (recipe_in E "delta") deltas -> NoDup (map fst kw) -> (forall k, In k (map fst kw) -> In k (map fst defaults)) ->
  converted E (dupdate String.eqb defaults kw) nkw ->
  method E m deltas kw = Ok (VMerge m deltas nkw) /\ recipe_in E "delta" (VMerge m deltas nkw).
Proof.
  intros E m defaults deltas kw nkw HE Hm Hd ND Hk Hc.
  assert (Ks : map fst (dupdate String.eqb defaults kw) = map fst defaults \/ True) by auto. clear Ks.
  assert (In_def : forall k, In k (map fst (dupdate String.eqb defaults kw)) -> In k (map fst defaults)).
  { intros k H. destruct (dupdate_keys _ kw defaults) as (ks & E1 & E2). rewrite E1 in H. apply in_app_iff in H as [H|H]; auto. }
  eapply (created E m (sig_deltas defaults) deltas kw deltas (dupdate String.eqb defaults kw) deltas nkw
            (repeat "delta" (length deltas)) (map (fun kn => (fst kn, "param")) nkw)); auto.
  - rewrite deltas_bind by auto. replace (forallb _ kw) with true; [reflexivity|]. symmetry. apply forallb_forall.
    intros kv Hkv. unfold dmem. rewrite named_get; auto. apply Hk. apply in_map; auto.
  - unfold convert_args, args_varargs. cbn [sig_deltas g_args g_vararg map app length]. rewrite Nat.sub_0_r.
    clear -Hd. induction Hd as [|d ds (Nd & Sd) _ IH]; [reflexivity|]. cbn [length repeat combine map_res fst snd].
    rewrite value_to_node_node by auto. cbn [bind]. rewrite IH. reflexivity.
  - unfold convert_kwargs. revert In_def Hc. generalize (dupdate String.eqb defaults kw). intros l In_def Hc.
    induction Hc as [|[k v] [k' n] l l' (E1 & P) _ IH]; [reflexivity|]. cbn [map_res fst snd] in *.
    cbn [sig_deltas g_kw] in *. rewrite named_get by (apply In_def; left; auto).
    rewrite (param_node E v n _ P). cbn [bind]. subst k'. rewrite IH by (intros; apply In_def; right; auto). reflexivity.
  - clear -Hd. induction Hd as [|d ds (Nd & Sd) _ IH]; [reflexivity|]. cbn [map_res length repeat]. rewrite Sd; cbn [bind]. rewrite IH; reflexivity.
  - clear -Hc. induction Hc as [|[k v] [k' n] l l' (E1 & P) _ IH]; [reflexivity|]. cbn [map_kres map fst snd] in *. rewrite (proj2 P); cbn [bind]. rewrite IH; reflexivity.
  - unfold return_space. rewrite check_sets; [reflexivity|]. intros p a H. unfold space_pairs in H. apply in_app_iff in H as [H|H].
    + apply in_map_iff in H as ([i x] & E1 & H). cbn [fst snd] in E1. injection E1 as <- <-.
      assert (Hi : i < length deltas).
      { apply in_combine_l in H. apply in_seq in H. rewrite repeat_length in H. lia. }
      exists ["delta"]. apply in_combine_r in H. apply repeat_spec in H. subst x. split; [|reflexivity].
      rewrite repeat_length. unfold args_varargs, in_spaces_args, in_space_vararg.
      cbn [sig_deltas g_args g_defaults g_vararg arg_spaces length app]. rewrite Nat.sub_0_r. cbn [tensor_in p_space].
      rewrite (nth_error_nth' _ (PSet ["delta"])) by (rewrite repeat_length; auto). rewrite nth_repeat. reflexivity.
    + apply in_map_iff in H as ([k x] & E1 & H). cbn [fst snd] in E1. injection E1 as <- <-.
      apply in_map_iff in H as ([k' n] & E2 & H). cbn [fst] in E2. injection E2 as <- <-.
      exists ["param"]. split; [|reflexivity].
      assert (Hk' : In k' (map fst defaults)).
      { apply In_def. clear -Hc H. induction Hc as [|[k v] [k'' n'] l l' (E1 & P) _ IH]; [destruct H|].
        destruct H as [H|H]; [injection H as -> ->; left; auto|right; auto]. }
      unfold in_spaces_kw. cbn [sig_deltas g_kw g_kwdefaults].
      assert (G : forall ks, In k' ks -> dget String.eqb k' (map (fun kp : string * param => (fst kp,
                space_or_default (sig_deltas defaults) (snd kp) (dmem String.eqb (fst kp) defaults))) (named ks)) = Some (PSet ["param"])).
      { induction ks as [|y ks IH]; intros []; cbn [named map dget fst snd].
        - subst y. rewrite String.eqb_refl. unfold space_or_default. cbn [number p_space p_literal]. rewrite orb_true_r. reflexivity.
        - destruct (String.eqb_spec k' y); [|apply IH; auto]. unfold space_or_default. cbn [number p_space p_literal]. rewrite orb_true_r. reflexivity. }
      apply G; auto.
Qed.

(** ** The wrappers *)

(** what becomes of a model: a weight is turned into its difference to the base,
    a delta is used as it is *)
Definition delta_of (E : env) (base m d : pyobj) : Prop :=
  (recipe_in E "weight" m /\ d = VMerge "subtract" [m; base] []) \/ (recipe_in E "delta" m /\ d = m).

Lemma operands : forall E l, Forall (fun m => is_node m = true) l -> map_res (operand E) l = Ok l.
Proof.
  intros E l H; induction H as [|x l N _ IH]; [reflexivity|]. cbn [map_res]. rewrite operand_node by auto. cbn [bind]. rewrite IH. reflexivity.
Qed.
Lemma deltas_of : forall E base models, has_methods E -> recipe_in E "weight" base ->
  Forall (fun m => recipe_in E "weight" m \/ recipe_in E "delta" m) models ->
  map_res (operand E) models = Ok models /\
  exists ds, map_res (as_delta E base) models = Ok ds /\ Forall2 (delta_of E base) models ds /\ Forall (recipe_in E "delta") ds.
Proof.
  intros E base models HE Hb H. split.
  - apply operands. clear -H. induction H as [|m l [(N & _)|(N & _)] _ IH]; constructor; auto.
  - induction H as [|m l Hm _ (ds & I1 & I2 & I3)]; [exists []; repeat split; constructor|].
    cbn [map_res]. unfold as_delta at 1. destruct Hm as [Hm|Hm].
    + rewrite (proj2 Hm). cbn [bind]. rewrite String.eqb_refl. destruct (sub_ok E m base HE Hm Hb) as (-> & S). cbn [bind].
      rewrite I1. eexists; split; [reflexivity|]. split; constructor; auto. left; auto.
    + rewrite (proj2 Hm). cbn [bind]. replace (String.eqb "delta" "weight") with false by reflexivity. cbn [bind].
      rewrite I1. eexists; split; [reflexivity|]. split; constructor; auto. right; auto.
Qed.

Theorem C58_add_difference_partial : forall E a b alpha n, has_methods E -> recipe_in E "weight" a -> parameter E alpha n ->
  (* a delta is added *)
  (recipe_in E "delta" b -> w_add_difference E a b None alpha false = Ok (VMerge "add_difference" [a; b; n] [])) /\
  (* with three weights, the difference of the last two is *)
  (forall c, recipe_in E "weight" b -> recipe_in E "weight" c ->
     let sum := VMerge "add_difference" [a; VMerge "subtract" [b; c] []; n] [] in
     w_add_difference E a b (Some c) alpha false = Ok sum /\
     w_add_difference E a b (Some c) alpha true = Ok (VMerge "clamp" [sum; a; b] [("stiffness", zero_stiffness)])).
Proof.
  intros E a b alpha n HE Ha Hp. unfold w_add_difference. split.
  - intros Hb. rewrite !operand_node by (apply Ha || apply Hb). cbn [bind].
    destruct (add_ok E a b alpha n HE Ha Hb Hp) as (-> & _). cbn [bind]. rewrite (proj2 Ha), (proj2 Hb). reflexivity.
  - intros c Hb Hc. cbv zeta. rewrite !operand_node by (apply Ha || apply Hb || apply Hc). cbn [bind].
    destruct (sub_ok E b c HE Hb Hc) as (-> & S). cbn [bind].
    destruct (add_ok E a (VMerge "subtract" [b; c] []) alpha n HE Ha S Hp) as (-> & R). cbn [bind].
    rewrite (proj2 Ha), (proj2 Hb). cbn [bind]. rewrite String.eqb_refl. split; [reflexivity|].
    rewrite (proj2 Hb). cbn [bind]. rewrite String.eqb_refl. cbn [negb]. apply clamp_ok; auto.
Qed.

Theorem C58_add_perpendicular_partial : forall E a b c alpha n, has_methods E ->
  recipe_in E "weight" a -> recipe_in E "weight" b -> recipe_in E "weight" c -> parameter E alpha n ->
  w_add_perpendicular E a b c alpha =
  Ok (VMerge "add_difference" [a; VMerge "perpendicular_component" [VMerge "subtract" [a; c] []; VMerge "subtract" [b; c] []] []; n] []).
Proof.
  intros E a b c alpha n HE Ha Hb Hc Hp. unfold w_add_perpendicular.
  rewrite !operand_node by (apply Ha || apply Hb || apply Hc). cbn [bind].
  destruct (sub_ok E a c HE Ha Hc) as (-> & S1). cbn [bind]. destruct (sub_ok E b c HE Hb Hc) as (-> & S2). cbn [bind].
  destruct (perp_ok E _ _ HE S1 S2) as (-> & P). cbn [bind]. exact (proj1 (add_ok E a _ alpha n HE Ha P Hp)).
Qed.

(** TIES over any number of models, weights and deltas mixed *)
Theorem C58_ties_partial : forall E base models alpha n k nk, has_methods E -> recipe_in E "weight" base ->
  Forall (fun m => recipe_in E "weight" m \/ recipe_in E "delta" m) models -> parameter E alpha n -> parameter E k nk ->
  exists ds, Forall2 (delta_of E base) models ds /\
    w_ties E base models alpha k =
    Ok (VMerge "add_difference" [base; VMerge "ties_sum" ds [("k", nk); ("vote_sgn", VLit (VBool false) None "param")]; n] []).
Proof.
  intros E base models alpha n k nk HE Hb Hm Hp Hk.
  destruct (deltas_of E base models HE Hb Hm) as (O & ds & D1 & D2 & D3). exists ds. split; auto.
  unfold w_ties. rewrite operand_node by apply Hb. cbn [bind]. rewrite O; cbn [bind]. rewrite D1; cbn [bind].
  destruct (deltas_ok E "ties_sum" ties_defaults ds [("k", k)] [("k", nk); ("vote_sgn", VLit (VBool false) None "param")]) as (-> & S); auto.
  - repeat constructor; simpl; tauto.
  - intros x [<-|[]]. simpl; auto.
  - repeat constructor; auto; apply Hk.
  - cbn [bind]. exact (proj1 (C58_add_difference_partial E base _ alpha n HE Hb Hp) S).
Qed.

(** and the extended form: every option reaches the method under its own name *)
Theorem C58_ties_extended_partial : forall E base models alpha n opts nopts, has_methods E -> recipe_in E "weight" base ->
  Forall (fun m => recipe_in E "weight" m \/ recipe_in E "delta" m) models -> parameter E alpha n ->
  map fst opts = ["k"; "vote_sgn"; "apply_stock"; "cos_eps"; "apply_median"; "eps"; "maxiter"; "ftol"] ->
  converted E opts nopts ->
  exists ds nkw, Forall2 (delta_of E base) models ds /\ (forall x, In x nkw <-> In x nopts) /\ length nkw = length nopts /\
    w_ties_extended E base models alpha opts = Ok (VMerge "add_difference" [base; VMerge "ties_sum_extended" ds nkw; n] []).
Proof.
  intros E base models alpha n opts nopts HE Hb Hm Hp Hf Hc.
  destruct (deltas_of E base models HE Hb Hm) as (O & ds & D1 & D2 & D3).
  destruct opts as [|[? v1] [|[? v2] [|[? v3] [|[? v4] [|[? v5] [|[? v6] [|[? v7] [|[? v8] [|]]]]]]]]]; try discriminate.
  cbn [map fst] in Hf. injection Hf as -> -> -> -> -> -> -> ->.
  unfold converted in Hc.
  inversion Hc as [|? [k1 m1] ? l1 (e1 & P1) Hc1 Eq1 Eq2]; clear Eq1 Hc; subst; cbn [fst snd] in e1, P1; subst k1.
  inversion Hc1 as [|? [k2 m2] ? l2 (e2 & P2) Hc2 Eq1 Eq2]; clear Eq1 Hc1; subst; cbn [fst snd] in e2, P2; subst k2.
  inversion Hc2 as [|? [k3 m3] ? l3 (e3 & P3) Hc3 Eq1 Eq2]; clear Eq1 Hc2; subst; cbn [fst snd] in e3, P3; subst k3.
  inversion Hc3 as [|? [k4 m4] ? l4 (e4 & P4) Hc4 Eq1 Eq2]; clear Eq1 Hc3; subst; cbn [fst snd] in e4, P4; subst k4.
  inversion Hc4 as [|? [k5 m5] ? l5 (e5 & P5) Hc5 Eq1 Eq2]; clear Eq1 Hc4; subst; cbn [fst snd] in e5, P5; subst k5.
  inversion Hc5 as [|? [k6 m6] ? l6 (e6 & P6) Hc6 Eq1 Eq2]; clear Eq1 Hc5; subst; cbn [fst snd] in e6, P6; subst k6.
  inversion Hc6 as [|? [k7 m7] ? l7 (e7 & P7) Hc7 Eq1 Eq2]; clear Eq1 Hc6; subst; cbn [fst snd] in e7, P7; subst k7.
  inversion Hc7 as [|? [k8 m8] ? l8 (e8 & P8) Hc8 Eq1 Eq2]; clear Eq1 Hc7; subst; cbn [fst snd] in e8, P8; subst k8.
  inversion Hc8; subst.
  exists ds, [("k", m1); ("vote_sgn", m2); ("apply_stock", m3); ("apply_median", m5); ("cos_eps", m4); ("eps", m6); ("maxiter", m7); ("ftol", m8)].
  split; [exact D2|]. split; [|split; [reflexivity|]].
  2: {
  unfold w_ties_extended. rewrite operand_node by apply Hb. cbn [bind]. rewrite O; cbn [bind]. rewrite D1; cbn [bind].
  match goal with |- context [method E "ties_sum_extended" ds ?kw] =>
    destruct (deltas_ok E "ties_sum_extended" ties_extended_defaults ds kw
      [("k", m1); ("vote_sgn", m2); ("apply_stock", m3); ("apply_median", m5); ("cos_eps", m4); ("eps", m6); ("maxiter", m7); ("ftol", m8)]) as (-> & S) end; auto.
  - repeat constructor; simpl; intuition discriminate.
  - simpl. tauto.
  - unfold converted. cbn [ties_extended_defaults dupdate fold_left dset String.eqb Ascii.eqb Bool.eqb fst snd].
    repeat (apply Forall2_cons; [split; [reflexivity|assumption]|]). constructor.
  - cbn [bind]. exact (proj1 (C58_add_difference_partial E base _ alpha n HE Hb Hp) S). }
  intros z. simpl. tauto.
Qed.

Theorem C58_model_stock_partial : forall E base models eps n, has_methods E -> recipe_in E "weight" base ->
  Forall (fun m => recipe_in E "weight" m \/ recipe_in E "delta" m) models -> parameter E eps n ->
  exists ds, Forall2 (delta_of E base) models ds /\
    w_model_stock E base models eps =
    Ok (VMerge "add_difference" [base; VMerge "model_stock" ds [("cos_eps", n)]; one] []).
Proof.
  intros E base models eps n HE Hb Hm Hp.
  destruct (deltas_of E base models HE Hb Hm) as (O & ds & D1 & D2 & D3). exists ds. split; auto.
  unfold w_model_stock. rewrite operand_node by apply Hb. cbn [bind]. rewrite O; cbn [bind]. rewrite D1; cbn [bind].
  destruct (deltas_ok E "model_stock" stock_defaults ds [("cos_eps", eps)] [("cos_eps", n)]) as (-> & S); auto.
  - repeat constructor; simpl; tauto.
  - repeat constructor; auto; apply Hp.
  - cbn [bind]. exact (proj1 (add_ok E base _ _ _ HE Hb S (float_param E "1.0"))).
Qed.

(** copying a region and rotating, without and with an origin *)
Theorem C58_region_and_rotate_partial : forall E a b s v n w m, has_methods E -> In s all_spaces ->
  recipe_in E s a -> recipe_in E s b -> parameter E v n -> parameter E w m ->
  (forall top_k, w_copy_region E a b None v w top_k =
     Ok (VMerge (if top_k then "top_k_tensor_sum" else "tensor_sum") [a; b; n; m] [])) /\
  w_rotate E a b None v w = Ok (VMerge "rotate" [a; b; n; m] []) /\
  (forall c, s = "weight" -> recipe_in E "weight" c ->
     (forall top_k, w_copy_region E a b (Some c) v w top_k =
        Ok (VMerge "add_difference" [c; VMerge (if top_k then "top_k_tensor_sum" else "tensor_sum")
              [VMerge "subtract" [a; c] []; VMerge "subtract" [b; c] []; n; m] []; one] [])) /\
     w_rotate E a b (Some c) v w =
        Ok (VMerge "add_difference" [c; VMerge "rotate" [VMerge "subtract" [a; c] []; VMerge "subtract" [b; c] []; n; m] []; one] [])).
Proof.
  intros E a b s v n w m HE Hs Ha Hb Pv Pw. unfold w_copy_region, w_rotate, around.
  rewrite !operand_node by (apply Ha || apply Hb). cbn [bind]. split; [|split].
  - intros top_k. apply (region_ok E _ a b v w n m s); auto. destruct top_k; auto.
  - apply (rotate_ok E a b v w n m s); auto.
  - intros c -> Hc. rewrite !operand_node by apply Hc. cbn [bind].
    destruct (sub_ok E a c HE Ha Hc) as (-> & S1). cbn [bind]. destruct (sub_ok E b c HE Hb Hc) as (-> & S2). cbn [bind].
    assert (Hd : In "delta" all_spaces) by (simpl; auto). split.
    + intros top_k. assert (T : (if top_k then "top_k_tensor_sum" else "tensor_sum") = "tensor_sum" \/
        (if top_k then "top_k_tensor_sum" else "tensor_sum") = "top_k_tensor_sum") by (destruct top_k; auto).
      destruct (region_ok E _ _ _ v w n m "delta" T HE Hd S1 S2 Pv Pw) as (-> & R).
      cbn [bind]. exact (proj1 (add_ok E c _ _ _ HE Hc R (float_param E "1.0"))).
    + destruct (rotate_ok E _ _ v w n m "delta" HE Hd S1 S2 Pv Pw) as (-> & R). cbn [bind].
      exact (proj1 (add_ok E c _ _ _ HE Hc R (float_param E "1.0"))).
Qed.

(** Full statement for the two remaining wrappers: they build a recipe too.
    Refuted: whatever they are given, they raise, and on weights it is TypeError,
    because they pass a keyword their method does not have. *)
Theorem C58_dropout_refuted : forall E a models p alpha o e s,
  (forall r, w_dropout E a models p alpha o e s <> Ok r) /\
  (has_methods E -> recipe_in E "weight" a -> Forall (recipe_in E "weight") models ->
   w_dropout E a models p alpha o e s = Err TypeError).
Proof.
  intros E a models p alpha o e s. unfold w_dropout.
  assert (M : forall deltas, method E "dropout" deltas [("probability", p); ("overlap", o); ("overlap_skew", e); ("seed", s)] = Err TypeError).
  { intros deltas. unfold method. change (dget String.eqb "dropout" builtin_sigs) with (Some (sig_deltas dropout_defaults)).
    unfold create_recipe. rewrite deltas_bind by (repeat constructor; simpl; intuition discriminate). reflexivity. }
  split.
  - intros r. destruct (map_res _ models); cbn [bind]; [|discriminate]. rewrite M. discriminate.
  - intros HE Ha Hm. replace (map_res _ models) with (Ok (map (fun m => VMerge "subtract" [m; a] []) models)).
    + cbn [bind]. rewrite M. reflexivity.
    + symmetry. induction Hm as [|m l Hm _ IH]; [reflexivity|]. cbn [map_res map]. destruct (sub_ok E m a HE Hm Ha) as (-> & _).
      cbn [bind]. rewrite IH. reflexivity.
Qed.
Theorem C58_ties_with_dare_refuted : forall E base models p rescale alpha opts, NoDup (map fst (("probability", p) :: ("rescale", rescale) :: opts)) ->
  (forall r, w_ties_with_dare E base models p rescale alpha opts <> Ok r) /\
  (has_methods E -> recipe_in E "weight" base -> Forall (fun m => recipe_in E "weight" m \/ recipe_in E "delta" m) models ->
   w_ties_with_dare E base models p rescale alpha opts = Err TypeError).
Proof.
  intros E base models p rescale alpha opts ND. unfold w_ties_with_dare.
  assert (M : forall deltas, method E "ties_sum_with_dropout" deltas (("probability", p) :: ("rescale", rescale) :: opts) = Err TypeError).
  { intros deltas. unfold method. change (dget String.eqb "ties_sum_with_dropout" builtin_sigs) with (Some (sig_deltas ties_dropout_defaults)).
    unfold create_recipe. rewrite deltas_bind by auto. reflexivity. }
  split.
  - intros r. destruct (operand E base); cbn [bind]; [|discriminate]. destruct (map_res (operand E) models); cbn [bind]; [|discriminate].
    destruct (map_res _ _); cbn [bind]; [|discriminate]. rewrite M. discriminate.
  - intros HE Hb Hm. destruct (deltas_of E base models HE Hb Hm) as (O & ds & D1 & _).
    rewrite operand_node by apply Hb. cbn [bind]. rewrite O; cbn [bind]. rewrite D1; cbn [bind]. rewrite M. reflexivity.
Qed.

Definition E_wrap : env := Env builtin_sigs [] all_spaces.
Example C58_applies : let m p := VModel p None "weight" in
  has_methods E_wrap /\ recipe_in E_wrap "weight" (m "a") /\ recipe_in E_wrap "delta" (VModel "d" None "delta") /\
  parameter E_wrap (VFloat "0.5") (VLit (VFloat "0.5") None "param") /\
  w_ties E_wrap (m "a") [m "b"; VModel "d" None "delta"] (VFloat "0.5") (VFloat "1.0") =
  Ok (VMerge "add_difference" [m "a"; VMerge "ties_sum" [VMerge "subtract" [m "b"; m "a"] []; VModel "d" None "delta"]
        [("k", one); ("vote_sgn", VLit (VBool false) None "param")]; VLit (VFloat "0.5") None "param"] []).
Proof.
  cbv zeta. split; [|split; [split; reflexivity|split; [split; reflexivity|split; [apply float_param|reflexivity]]]].
  intros m g H. simpl in H. repeat (destruct H as [H|H]; [injection H as <- <-; reflexivity|]). destruct H.
Qed.
Print Assumptions C58_add_difference_partial.
Print Assumptions C58_add_perpendicular_partial.
Print Assumptions C58_ties_partial.
Print Assumptions C58_ties_extended_partial.
Print Assumptions C58_model_stock_partial.
Print Assumptions C58_region_and_rotate_partial.
Print Assumptions C58_dropout_refuted.
Print Assumptions C58_ties_with_dare_refuted.
