(** C01-C04: the .mecha text format.
    Read with SpecRecipe.v (vocabulary) and ModelSerial.v / ModelRecipe.v (model). *)
From Coq Require Import String Ascii List Bool Arith NArith ZArith Lia.
From Verif Require Import Base Dec Json PyStr ModelRecipe ModelSerial SpecRecipe SerialProofs1 SerialProofs2 SerialProofs3.
Import ListNotations.
Open Scope string_scope.
Open Scope list_scope.
Open Scope nat_scope.

(** ** A registry and recipes for the examples *)
Definition any_param := Param PNone None false true.
Definition lit_param := Param (PSet ["param"]) None true false.
Definition E0 : env := Env
  [ ("mix", Sig [("a", any_param); ("b", any_param)] [] None [("alpha", lit_param)] [("alpha", VFloat "0.5")] RNone None ["weight"; "delta"; "param"]);
    ("average", Sig [] [] (Some any_param) [] [] RNone None ["weight"; "delta"; "param"]);
    ("named", Sig [("a", any_param); ("name", lit_param)] [] None [] [] RNone None ["weight"; "delta"; "param"]) ]
  ["sd1"] ["weight"; "delta"; "param"].

Lemma E0_sigs : forall m g, resolve_method E0 m = Ok g -> sig_ok g.
Proof.
  intros m g H. unfold resolve_method in H. simpl in H.
  destruct (String.eqb m "mix"); [|destruct (String.eqb m "average"); [|destruct (String.eqb m "named"); [|discriminate]]];
    inversion H; subst; unfold sig_ok; simpl;
    (split; [repeat constructor; simpl; intuition discriminate|]); (split; [lia|]);
    (split; [repeat constructor; simpl; tauto|]); intros k v X; simpl in X; try tauto.
  destruct X as [X|[]]. inversion X; auto.
Qed.

Definition mdl (p : string) : pyobj := VModel p None "weight".
(** mix("dir/a \"x\".st", average(b, b, a), alpha=-7), with sharing *)
Definition r1 : pyobj :=
  VMerge "mix" [mdl "dir/a ""x"".st"; VMerge "average" [mdl "b"; mdl "b"; mdl "dir/a ""x"".st"] []]
    [("alpha", VLit (VInt (-7)) None "param")].
(** a dict of recipes with a model config *)
Definition r2 : pyobj :=
  VMerge "average" [VLit (VDict [("k.0", VModel "b" (Some "sd1") "weight"); ("k.1", VModel "c" (Some "sd1") "weight")]) (Some "sd1") "weight"; r1] [].

Lemma r1_spelled : every spelled r1.
Proof.
  assert (O : forall s, has_char c_nl (s2l s) = false -> one_line s) by (intros s H; unfold one_line; apply has_char_false; auto).
  assert (P : forall s, has_char c_nl (s2l s) = false -> has_char "="%char (s2l s) = false -> positional s)
    by (intros s H1 H2; split; apply has_char_false; auto).
  simpl. repeat split; auto; try (apply O; reflexivity); try (apply P; reflexivity); try (apply O; reflexivity).
  all: try (apply has_char_false; reflexivity).
  all: repeat constructor.
  all: try (intros c Hc; simpl in Hc; intuition; subst; discriminate).
  all: try discriminate.
  all: simpl in *; intuition; subst; discriminate.
Qed.

Lemma mdl_made : forall p, l2s (path_norm (s2l p)) = p -> made E0 (mdl p).
Proof. intros p H. exists (s2l p), None, "weight". rewrite H. reflexivity. Qed.

Lemma r1_made : every (made E0) r1.
Proof.
  cbn [r1 every all_in all_kin mdl]. repeat split; try (apply mdl_made; reflexivity).
  - eexists. exists [mdl "dir/a ""x"".st"; VMerge "average" [mdl "b"; mdl "b"; mdl "dir/a ""x"".st"] []], [("alpha", VInt (-7))].
    split; [reflexivity|]. split; [repeat constructor; simpl; tauto|]. vm_compute. reflexivity.
  - eexists. exists [mdl "b"; mdl "b"; mdl "dir/a ""x"".st"], [].
    split; [reflexivity|]. split; [constructor|]. vm_compute. reflexivity.
  - exists false. reflexivity.
Qed.

(** ** C01 *)

(** Serializing a recipe and deserializing the text gives the same recipe back:
    [every (made E)] says the recipe was built through the API with registered
    names, [every spelled] is the condition on spelling. *)
Theorem C01_round_trip : forall E, (forall m g, resolve_method E m = Ok g -> sig_ok g) ->
  forall r, is_node r = true -> every (made E) r -> every spelled r -> bare r = false ->
  exists text, serialize r = Ok text /\ deserialize E text = Ok r.
Proof. intros E SG r Hn Hm Hs Hb. apply roundtrip; auto. Qed.

Example C01_applies : is_node r1 = true /\ every (made E0) r1 /\ every spelled r1 /\ bare r1 = false /\
  serialize r1 = Ok (join [c_nl] [
    s2l "version 0.1.0";
    s2l "model ""dir/a \""x\"".st"" model_config=null merge_space=""weight""";
    s2l "model ""b"" model_config=null merge_space=""weight""";
    s2l "merge ""average"" &1 &1 &0";
    s2l "merge ""mix"" &0 &2 alpha=-7"]) /\
  (match serialize r1 with Ok t => deserialize E0 t | Err e => Err e end) = Ok r1 /\
  (match serialize r2 with Ok t => deserialize E0 t | Err e => Err e end) = Ok r2.
Proof. split; [reflexivity|]. split; [exact r1_made|]. split; [exact r1_spelled|]. repeat split; vm_compute; reflexivity. Qed.

(** ** C03 (used by C02) *)
Lemma preprocess_args_ok : forall R args pos kw r, preprocess R args pos kw = Ok r ->
  forall a, In a args -> exists v, get_arg_value R (value_part a) = Ok v.
Proof.
  induction args as [|b args IH]; intros pos kw r H a []; subst; simpl in H; unfold value_part.
  - destruct (has_char "="%char a); apply bind_Ok in H as (v & Hv & _); eauto.
  - destruct (has_char "="%char b); apply bind_Ok in H as (v & _ & H); eapply IH; eauto.
Qed.

Lemma ref_in_range : forall R digits z v, get_arg_value R ("&"%char :: digits) = Ok v -> py_int digits = Ok z ->
  (0 <= z < Z.of_nat (length R))%Z.
Proof.
  intros R digits z v H Hz. unfold get_arg_value in H.
  assert (C : constant ("&"%char :: digits) = None).
  { unfold constant. simpl s2l. repeat (destruct (list_eq_dec _ _ _); [discriminate|]). reflexivity. }
  rewrite C in H. change (starts_with ["&"%char] ("&"%char :: digits)) with true in H. cbv iota in H. simpl tl in H. rewrite Hz in H. cbn [bind] in H.
  destruct (Z.ltb_spec z 0); [discriminate|]. destruct (Z.leb_spec (Z.of_nat (length R)) z); [discriminate|]. lia.
Qed.

Lemma parse_refs : forall E R line o z, parse_line E R line = Ok o -> comment line = false -> refers line z ->
  (0 <= z < Z.of_nat (length R))%Z.
Proof.
  intros E R line o z H Hc (cmd & args & a & Ht & Ha & digits & Hv & Hz). unfold parse_line in H. unfold comment in Hc.
  rewrite Hc, Ht in H. cbn [bind] in H. apply bind_Ok in H as (pk & Hp & _).
  destruct (preprocess_args_ok _ _ _ _ _ Hp a Ha) as (v & Hg). rewrite Hv in Hg. eapply ref_in_range; eauto.
Qed.

Lemma parse_comment : forall E R line o, parse_line E R line = Ok o -> (o = None <-> comment line = true).
Proof.
  intros E R line o H. unfold parse_line in H. unfold comment. destruct (starts_with ["#"%char] (strip line)).
  - inversion H. tauto.
  - split; [|discriminate]. intros ->. apply bind_Ok in H as ([|cmd args] & _ & H); [discriminate|].
    apply bind_Ok in H as (pk & _ & H).
    repeat (destruct (String.eqb _ _) in H; [apply bind_Ok in H as (v & _ & H); discriminate|]). discriminate.
Qed.

Lemma run_lines_count : forall E lines R R', run_lines E R lines = Ok R' -> length R' = length R + instructions lines.
Proof.
  unfold instructions. induction lines as [|l ls IH]; intros R R' H; simpl in H; [inversion H; simpl; lia|].
  apply bind_Ok in H as (o & Ho & H). apply IH in H. pose proof (parse_comment _ _ _ _ Ho) as Hc. simpl.
  destruct o as [v|], (comment l); simpl; try rewrite app_length in H; simpl in H; try lia.
  - destruct Hc as (_ & Hc). discriminate Hc; auto.
  - destruct Hc as (Hc & _). discriminate Hc; auto.
Qed.

(** If deserialize succeeds, the first line is the version header; every
    reference in an instruction line is between 0 and the number of instruction
    lines above it; the recipe returned is what the last instruction line
    evaluates to, given the results of the lines above it. *)
Theorem C03_deserialize_checks_references : forall E lines r, deserialize_lines E lines = Ok r ->
  exists rest, lines = s2l "version 0.1.0" :: rest /\
  (forall above line below z, rest = above ++ line :: below -> comment line = false -> refers line z ->
     (0 <= z < Z.of_nat (instructions above))%Z) /\
  (exists above line below R, rest = above ++ line :: below /\ comment line = false /\ instructions below = 0 /\
     run_lines E [] above = Ok R /\ length R = instructions above /\ parse_line E R line = Ok (Some r)).
Proof.
  intros E lines r H. unfold deserialize_lines in H. destruct lines as [|h rest]; [discriminate|].
  destruct (starts_with (s2l "version") h); [|discriminate]. simpl negb in H. cbv iota in H.
  destruct (list_eq_dec ascii_dec h version_header) as [->|]; [|discriminate].
  apply bind_Ok in H as (R & HR & HL). exists rest. split; [reflexivity|]. split.
  - intros above line below z -> Hc Hz. rewrite run_lines_app in HR. apply bind_Ok in HR as (R1 & H1 & HR).
    simpl in HR. apply bind_Ok in HR as (o & Ho & HR). pose proof (run_lines_count _ _ _ _ H1) as L. simpl in L.
    rewrite <- L. eapply parse_refs; eauto.
  - clear -HR HL.
    assert (G : forall rest R0 R, run_lines E R0 rest = Ok R -> instructions rest <> 0 -> last_result R = Ok r ->
      exists above line below R1, rest = above ++ line :: below /\ comment line = false /\ instructions below = 0 /\
       run_lines E R0 above = Ok R1 /\ length R1 = length R0 + instructions above /\ parse_line E R1 line = Ok (Some r)).
    { clear. induction rest as [|l ls IH]; intros R0 R H Hi HL; [unfold instructions in Hi; simpl in Hi; congruence|].
      pose proof H as Hall. simpl in H. apply bind_Ok in H as (o & Ho & H). pose proof (parse_comment _ _ _ _ Ho) as Hc.
      destruct (Nat.eq_dec (instructions ls) 0) as [Hz|Hnz].
      - assert (Hl : comment l = false). { unfold instructions in Hi, Hz. simpl in Hi. destruct (comment l); auto. simpl in Hi. congruence. }
        exists [], l, ls, R0. split; [auto|]. split; [auto|]. split; [auto|]. split; [reflexivity|]. split; [unfold instructions; simpl; lia|].
        destruct o as [v|]; [|destruct Hc as (Hc & _); rewrite Hc in Hl; auto; discriminate].
        pose proof (run_lines_count _ _ _ _ H) as L. destruct (run_lines_prefix _ _ _ _ H) as (S & ES & _). subst R.
        rewrite Hz, app_length in L. destruct S; [|simpl in L; lia]. rewrite app_nil_r in HL.
        unfold last_result in HL. rewrite rev_app_distr in HL. simpl in HL. inversion HL; subst; auto.
      - destruct (IH _ _ H Hnz HL) as (a & line & b & R1 & E1 & E2 & E3 & E4 & E5 & E6).
        exists (l :: a), line, b, R1. split; [simpl; f_equal; auto|]. split; [auto|]. split; [auto|].
        split; [simpl; rewrite Ho; simpl; auto|]. split; [|auto].
        pose proof (run_lines_count E (l :: a) R0 R1) as L. apply L. simpl. rewrite Ho. simpl. auto. }
    apply (G rest [] R HR); auto. pose proof (run_lines_count _ _ _ _ HR) as L. simpl in L. rewrite <- L. intros X.
    destruct R; [discriminate HL|discriminate X].
Qed.

Corollary C03_out_of_range_reference_raises : forall E above line below z, comment line = false -> refers line z ->
  ~ (0 <= z < Z.of_nat (instructions above))%Z ->
  exists e, deserialize_lines E (s2l "version 0.1.0" :: above ++ line :: below) = Err e.
Proof.
  intros E above line below z Hc Hz Hr. destruct (deserialize_lines E (s2l "version 0.1.0" :: above ++ line :: below)) as [r|e] eqn:D; [|eauto].
  exfalso. apply C03_deserialize_checks_references in D as (rest & Er & H & _). injection Er; intros <-. apply Hr. eapply H; eauto.
Qed.

Example C03_applies :
  is_ok (deserialize_lines E0 [s2l "version 0.1.0"; s2l "model ""a"""; s2l "# &9"; s2l "merge ""average"" &0 &0"]) = true /\
  deserialize_lines E0 [s2l "version 0.1.0"; s2l "model ""a"""; s2l "# &9"; s2l "merge ""average"" &0 &1"] = Err ValueError /\
  refers (s2l "merge ""average"" &0 &1") 1 /\
  deserialize_lines E0 [s2l "version 0.2.0"; s2l "model ""a"""] = Err RuntimeError.
Proof.
  repeat split; try reflexivity. exists (s2l "merge"), [s2l """average"""; s2l "&0"; s2l "&1"], (s2l "&1").
  split; [reflexivity|]. split; [simpl; auto|]. exists (s2l "1"). split; reflexivity.
Qed.

(** ** C02 *)

Lemma add_instr_NoDup : forall line I, NoDup I -> NoDup (snd (add_instr line I)).
Proof.
  intros line I H. unfold add_instr. destruct (index_of line I) eqn:Ei; simpl; auto.
  apply index_of_None in Ei. apply NoDup_app_iff. split; auto. split; [repeat constructor; simpl; tauto|].
  intros x Hx [<-|[]]. auto.
Qed.

Lemma ser_NoDup : forall v I t I', ser v I = Ok (t, I') -> NoDup I -> NoDup I'.
Proof.
  assert (GL : forall l, Forall (fun v => forall I t I', ser v I = Ok (t, I') -> NoDup I -> NoDup I') l ->
    forall I ts I', ser_list ser l I = Ok (ts, I') -> NoDup I -> NoDup I').
  { induction l as [|v l IH]; intros HF I ts I' H ND; simpl in H; [inversion H; subst; auto|].
    inversion HF; subst. apply bind_Ok in H as ((t & I1) & H1 & H). apply bind_Ok in H as ((ts' & I2) & H2' & H). inversion H; subst. simpl in *.
    eapply IH; eauto. }
  assert (GK : forall l, Forall (fun kv : string * pyobj => forall I t I', ser (snd kv) I = Ok (t, I') -> NoDup I -> NoDup I') l ->
    forall I ts I', ser_kws ser l I = Ok (ts, I') -> NoDup I -> NoDup I').
  { intros l HF I ts I' H ND. rewrite ser_kws_list in H. apply bind_Ok in H as ((ts' & I2) & H2 & H). inversion H; subst. simpl.
    apply (GL (map snd l)) with (2 := H2); auto. clear -HF. induction HF; simpl; constructor; auto. }
  assert (GA : forall line I t I', Ok (add_instr line I) = Ok (t, I') -> NoDup I -> NoDup I').
  { intros line I t I' H ND. injection H; intros X. change I' with (snd (t, I')). rewrite <- X. apply add_instr_NoDup; auto. }
  induction v using pyobj_rect'; intros I t I' H' ND; cbn [ser] in H';
    try (injection H'; intros <- _; exact ND); try discriminate.
  - apply bind_Ok in H' as ((ts & I1) & H1 & H'). eapply GA; [exact H'|]. simpl. eapply GK; eauto.
  - destruct c as [c|]; [|eauto]. apply bind_Ok in H' as ((t1 & I1) & H1 & H'). eapply GA; [exact H'|]. simpl. eauto.
  - eapply GA; eauto.
  - apply bind_Ok in H' as ((ts & I1) & H1 & H'). apply bind_Ok in H' as ((ks & I2) & H2 & H'). eapply GA; [exact H'|]. simpl in *.
    eapply GK; [exact H0|exact H2|]. eapply GL; eauto.
Qed.

(** For any recipe that serializes, the text is the header followed by
    instruction lines without repetition. *)
Theorem C02_instructions_distinct : forall r text, serialize r = Ok text ->
  exists I, text = join [c_nl] (s2l "version 0.1.0" :: I) /\ NoDup I.
Proof.
  intros r text H. unfold serialize in H. apply bind_Ok in H as ((t & I) & H1 & H). exists I. inversion H; subst.
  split; [reflexivity|]. eapply ser_NoDup; eauto. constructor.
Qed.

(** Moreover, for the recipes of C01, splitting the text at newlines gives those
    instruction lines back, and each reference in a line denotes a line above it. *)
Theorem C02_references_point_backwards : forall E, (forall m g, resolve_method E m = Ok g -> sig_ok g) ->
  forall r, is_node r = true -> every (made E) r -> every spelled r -> bare r = false ->
  exists text I, serialize r = Ok text /\ text = join [c_nl] (s2l "version 0.1.0" :: I) /\ NoDup I /\
    split_on c_nl text = s2l "version 0.1.0" :: I /\
    forall i line z, nth_error I i = Some line -> refers line z -> (0 <= z < Z.of_nat i)%Z.
Proof.
  intros E SG r Hn Hm Hs Hb. destruct (ser_good E SG r Hs Hm [] []) as (t & I & R & w & S1 & (Hr & Hl & Hnl) & _).
  { split; [reflexivity|]. split; auto. }
  exists (join [c_nl] (version_header :: I)), I. unfold serialize. rewrite S1. split; [reflexivity|]. split; [reflexivity|].
  split; [eapply ser_NoDup; [exact S1|constructor]|]. split.
  - apply split_join; [discriminate|]. intros p [<-|Hp]; [simpl; intuition discriminate|]. rewrite Forall_forall in Hnl. apply Hnl; auto.
  - intros i line z Hi Hz. simpl in Hr, Hl.
    destruct (run_lines_nth _ _ _ _ Hr) with (i := i) (l := line) as (v & W1 & W2); auto. simpl in W1.
    assert (Hc : comment line = false).
    { destruct (comment line) eqn:Ec; auto. apply (parse_comment _ _ _ _ W1) in Ec. discriminate. }
    pose proof (parse_refs _ _ _ _ _ W1 Hc Hz) as X. rewrite firstn_length in X. lia.
Qed.

Example C02_applies : is_node r1 = true /\ every (made E0) r1 /\ every spelled r1 /\ bare r1 = false /\
  refers (s2l "merge ""mix"" &0 &2 alpha=-7") 2.
Proof.
  split; [reflexivity|]. split; [exact r1_made|]. split; [exact r1_spelled|]. split; [reflexivity|].
  exists (s2l "merge"), [s2l """mix"""; s2l "&0"; s2l "&2"; s2l "alpha=-7"], (s2l "&2").
  split; [reflexivity|]. split; [simpl; auto|]. exists (s2l "2"). split; reflexivity.
Qed.

(** ** C04: the unrestricted round trip fails *)

Definition reread (r : pyobj) : result pyobj := let* t := serialize r in deserialize E0 t.
Definition named (v : pyobj) : pyobj := VMerge "named" [mdl "a"; VLit v None "param"] [].

(** Each of these recipes is accepted when built; none survives the round trip:
    booleans, an infinite float, a positional string with '=', a string with a
    newline raise; a config-less literal with a merge space loses it; a
    dict of literal nodes becomes a dict of plain values; a bare literal at the
    root raises IndexError. *)
Theorem C04_every_literal_round_trip_refuted :
  (forall v, In v [VBool true; VFloat "inf"; VStr "a=b"; VStr (String c_nl "x")] ->
     create_recipe E0 "named" (Sig [("a", any_param); ("name", lit_param)] [] None [] [] RNone None ["weight"; "delta"; "param"])
       [mdl "a"; v] [] = Ok (named v) /\ exists e, reread (named v) = Err e) /\
  (mk_literal E0 (VInt 1) None (Some "weight") = Ok (VLit (VInt 1) None "weight") /\
   reread (VMerge "average" [VLit (VInt 1) None "weight"] []) = Ok (VMerge "average" [VLit (VInt 1) None "param"] [])) /\
  (let d := VLit (VDict [("k", VLit (VInt 1) None "param")]) None "param" in
   mk_literal E0 (VDict [("k", VLit (VInt 1) None "param")]) None None = Ok d /\
   reread (VMerge "average" [d] []) = Ok (VMerge "average" [VLit (VDict [("k", VInt 1)]) None "param"] [])) /\
  (mk_literal E0 (VInt 1) None None = Ok (VLit (VInt 1) None "param") /\ reread (VLit (VInt 1) None "param") = Err IndexError).
Proof.
  split.
  - intros v [<-|[<-|[<-|[<-|[]]]]]; (split; [vm_compute; reflexivity|eexists; vm_compute; reflexivity]).
  - repeat split; vm_compute; reflexivity.
Qed.

Print Assumptions C01_round_trip.
Print Assumptions C02_instructions_distinct.
Print Assumptions C02_references_point_backwards.
Print Assumptions C03_deserialize_checks_references.
Print Assumptions C03_out_of_range_reference_raises.
Print Assumptions C04_every_literal_round_trip_refuted.
