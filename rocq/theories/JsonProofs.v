(** [json_loads (json_dumps j) = j] for every value without repeated keys. *)
From Coq Require Import String Ascii List Bool Arith NArith Lia.
From Verif Require Import Base Dec Json.
Import ListNotations.

Inductive wfj : json -> Prop :=
| wf_str : forall s, wfj (JStr s)
| wf_num : forall n, wfj (JNum n)
| wf_arr : forall l, Forall wfj l -> wfj (JArr l)
| wf_obj : forall l, NoDup (map fst l) -> Forall (fun kv => wfj (snd kv)) l -> wfj (JObj l).

Lemma pstring_step : forall c rest,
  pstring (jescape c ++ rest) = (let* p := pstring rest in Ok (c :: fst p, snd p)).
Proof.
  intros [[] [] [] [] [] [] [] []] rest; reflexivity.
Qed.

Lemma pstring_quote : forall l rest,
  pstring (flat_map jescape l ++ c_quote :: rest) = Ok (l, rest).
Proof.
  induction l as [|c l IH]; intros rest.
  - reflexivity.
  - simpl. rewrite <- app_assoc, pstring_step, IH. reflexivity.
Qed.

Definition no_digit_head (l : chars) : Prop :=
  match l with
  | [] => True
  | c :: _ => is_digit c = false /\ c <> "."%char /\ c <> "e"%char /\ c <> "E"%char
  end.

Lemma digits_app : forall ds rest,
  (forall c, In c ds -> is_digit c = true) -> no_digit_head rest ->
  digits (ds ++ rest) = (ds, rest).
Proof.
  induction ds as [|c ds IH]; intros rest Hd Hr; simpl.
  - destruct rest as [|c r]; auto. simpl in *. destruct Hr as (-> & _); auto.
  - rewrite Hd by (simpl; auto). rewrite IH; auto. intros; apply Hd; simpl; auto.
Qed.

Lemma dec_head_zero : forall n l, dec n = "0"%char :: l -> n = 0%N /\ l = [].
Proof.
  assert (H: forall f n l, (N.size_nat n <= f)%nat -> dec n = "0"%char :: l -> n = 0%N /\ l = []).
  { induction f as [|f IH]; intros n l Hf Hd.
    - assert (n = 0%N). { destruct n as [|p]; auto. simpl in Hf. destruct p; simpl in Hf; lia. }
      subst. inversion Hd; auto.
    - rewrite dec_step in Hd. destruct (N.ltb_spec n 10) as [Hlt|Hge].
      + assert (H0: digit n = "0"%char) by congruence. split; [|congruence].
        assert (E: digit_val (digit n) = 0%N) by (rewrite H0; reflexivity).
        rewrite digit_val_digit in E; auto.
      + destruct (dec (n/10)) as [|c l'] eqn:E; [destruct (dec_nonempty _ E)|].
        simpl in Hd. inversion Hd; subst.
        apply IH in E; [|apply size_nat_div10; auto].
        destruct E as [E _].
        assert (1 <= n / 10)%N by (apply N.div_le_lower_bound; lia). lia. }
  intros n l; apply (H (N.size_nat n)); auto.
Qed.

Lemma pnumber_dec : forall n rest, no_digit_head rest -> pnumber (dec n ++ rest) = Ok (n, rest).
Proof.
  intros n rest Hr.
  assert (Hx : forall (A : Type) (x : A), match rest with
    | "."%char :: _ | "e"%char :: _ | "E"%char :: _ => Err Unmodelled
    | _ => Ok x end = Ok x).
  { intros A x. destruct rest as [|c r]; auto. destruct Hr as (_ & H1 & H2 & H3).
    destruct c as [[] [] [] [] [] [] [] []]; try reflexivity; congruence. }
  assert (Hg : (let (ds, rest0) := digits (dec n ++ rest) in
    match rest0 with
    | "."%char :: _ | "e"%char :: _ | "E"%char :: _ => Err Unmodelled
    | _ => Ok (undec ds, rest0) end) = Ok (n, rest)).
  { rewrite digits_app; [|apply dec_digits|auto]. rewrite undec_dec. apply Hx. }
  destruct (dec n) as [|c l] eqn:E; [destruct (dec_nonempty _ E)|].
  destruct (Ascii.eqb_spec c "0"%char) as [->|Hc].
  - apply dec_head_zero in E as [-> ->]. simpl. apply Hx.
  - cbn [app] in Hg |- *. clear E Hx Hr.
    destruct c as [[] [] [] [] [] [] [] []]; first [exact Hg | congruence].
Qed.

Fixpoint cost (j : json) : nat :=
  match j with
  | JStr _ | JNum _ => 1
  | JArr l => S (list_sum (map (fun x => S (cost x)) l))
  | JObj l => S (list_sum (map (fun kv => match kv with (_, v) => S (cost v) end) l))
  end.

Lemma join_cons : forall sep p ps,
  join sep (p :: ps) = p ++ match ps with [] => [] | _ => sep ++ join sep ps end.
Proof. intros. destruct ps; simpl; auto. rewrite app_nil_r; auto. Qed.

Lemma json_dumps_head : forall j, exists c l, json_dumps j = c :: l /\ is_ws c = false.
Proof.
  intros [s|n|l|l]; simpl.
  - exists c_quote; eexists; split; [reflexivity|reflexivity].
  - destruct (dec n) as [|c l] eqn:E; [destruct (dec_nonempty _ E)|].
    exists c, l; split; auto. assert (H: is_digit c = true) by (apply (dec_digits n); rewrite E; simpl; auto).
    destruct c as [[] [] [] [] [] [] [] []]; try reflexivity; discriminate H.
  - eexists _, _; split; [reflexivity|reflexivity].
  - eexists _, _; split; [reflexivity|reflexivity].
Qed.

Lemma skip_ws_dumps : forall j rest, skip_ws (json_dumps j ++ rest) = json_dumps j ++ rest.
Proof.
  intros j rest. destruct (json_dumps_head j) as (c & l & -> & H). simpl. rewrite H; auto.
Qed.

Lemma is_obj_build_id : forall l, NoDup (map fst l) -> is_obj_build l = l.
Proof.
  intros l H. unfold is_obj_build. rewrite dupdate_fresh; auto. exact String.eqb_spec.
Qed.

Theorem pvalue_dumps : forall j, wfj j -> forall fuel rest,
  cost j <= fuel -> no_digit_head rest -> pvalue fuel (json_dumps j ++ rest) = Ok (j, rest).
Proof.
  apply (json_ind' (fun j => wfj j -> forall fuel rest, cost j <= fuel -> no_digit_head rest ->
     pvalue fuel (json_dumps j ++ rest) = Ok (j, rest))).
  - intros s _ [|f] rest Hf Hr; [simpl in Hf; lia|].
    cbn [json_dumps]. unfold jquote.
    rewrite <- app_comm_cons, <- app_assoc. cbn [pvalue].
    replace (Ascii.eqb c_quote c_quote) with true by reflexivity.
    change ([c_quote] ++ rest) with (c_quote :: rest).
    rewrite pstring_quote. cbn [bind fst snd]. rewrite l2s_s2l. auto.
  - intros n _ [|f] rest Hf Hr; [simpl in Hf; lia|].
    cbn [json_dumps].
    pose proof (pnumber_dec n rest Hr) as Hp.
    destruct (dec n) as [|c l] eqn:E; [destruct (dec_nonempty _ E)|].
    assert (Hd: is_digit c = true) by (apply (dec_digits n); rewrite E; simpl; auto).
    cbn [app pvalue]. cbn [app] in Hp. rewrite Hp.
    assert (Ascii.eqb c c_quote = false /\ Ascii.eqb c "{"%char = false /\ Ascii.eqb c "["%char = false) as (-> & -> & ->).
    { destruct c as [[] [] [] [] [] [] [] []]; try discriminate Hd; repeat split; reflexivity. }
    rewrite Hd. reflexivity.
  - intros l HF Hwf [|f] rest Hf Hr; [simpl in Hf; lia|].
    inversion Hwf as [| |? Hw|]; subst.
    cbn [json_dumps]. cbn [app pvalue].
    replace (Ascii.eqb "["%char c_quote) with false by reflexivity.
    replace (Ascii.eqb "["%char "{"%char) with false by reflexivity.
    replace (Ascii.eqb "["%char "["%char) with true by reflexivity.
    destruct l as [|x l].
    + cbn. reflexivity.
    + assert (Helems: forall l x f rest, Forall (fun j => wfj j -> forall fuel rest,
                 cost j <= fuel -> no_digit_head rest -> pvalue fuel (json_dumps j ++ rest) = Ok (j, rest)) (x :: l) ->
               Forall wfj (x :: l) -> list_sum (map (fun x => S (cost x)) (x :: l)) <= f ->
               pelems f (join [","%char] (map json_dumps (x :: l)) ++ "]"%char :: rest) = Ok (x :: l, rest)).
      { clear. induction l as [|y l IH]; intros x f rest HF Hw Hf.
        - inversion HF as [|? ? Hx _]; subst. inversion Hw as [|? ? Wx _]; subst.
          destruct f as [|f]; [simpl in Hf; lia|].
          cbn [map join pelems]. rewrite Hx; [|exact Wx|simpl in Hf; lia|simpl; repeat split; try reflexivity; discriminate].
          cbn. reflexivity.
        - inversion HF as [|? ? Hx HF']; subst. inversion Hw as [|? ? Wx Hw']; subst.
          destruct f as [|f]; [simpl in Hf; lia|].
          cbn [map]. rewrite join_cons. cbn [map].
          rewrite <- app_assoc. cbn [pelems].
          rewrite Hx; [|exact Wx|simpl in Hf; lia|simpl; repeat split; try reflexivity; discriminate].
          cbn [bind fst snd app skip_ws is_ws].
          replace (is_ws ","%char) with false by reflexivity.
          replace (Ascii.eqb ","%char "]"%char) with false by reflexivity.
          replace (Ascii.eqb ","%char ","%char) with true by reflexivity.
          assert (Hs: skip_ws (join [","%char] (json_dumps y :: map json_dumps l) ++ "]"%char :: rest)
                      = join [","%char] (json_dumps y :: map json_dumps l) ++ "]"%char :: rest).
          { rewrite join_cons, <- app_assoc. apply skip_ws_dumps. }
          rewrite Hs.
          change (json_dumps y :: map json_dumps l) with (map json_dumps (y :: l)).
          rewrite IH; auto. cbn [map list_sum fold_right] in Hf |- *. lia. }
      assert (Hs: skip_ws ((join [","%char] (map json_dumps (x :: l)) ++ ["]"%char]) ++ rest)
                  = join [","%char] (map json_dumps (x :: l)) ++ "]"%char :: rest).
      { cbn [map]. rewrite join_cons, <- !app_assoc. apply skip_ws_dumps. }
      rewrite Hs. cbn [cost] in Hf.
      assert (Hh: exists c r, join [","%char] (map json_dumps (x :: l)) ++ "]"%char :: rest = c :: r /\ Ascii.eqb c "]"%char = false).
      { cbn [map]. rewrite join_cons, <- app_assoc.
        assert (Hc: exists c r, json_dumps x = c :: r /\ Ascii.eqb c "]"%char = false).
        { destruct x as [s|n|?|?]; try (eexists _, _; split; [reflexivity|reflexivity]).
          cbn [json_dumps]. destruct (dec n) as [|c l'] eqn:E; [destruct (dec_nonempty _ E)|].
          exists c, l'; split; auto. assert (H: is_digit c = true) by (apply (dec_digits n); rewrite E; simpl; auto).
          destruct c as [[] [] [] [] [] [] [] []]; try reflexivity; discriminate H. }
        destruct Hc as (c & r & -> & Hc). eexists _, _; split; [reflexivity|auto]. }
      pose proof (Helems l x f rest HF Hw ltac:(lia)) as He.
      destruct Hh as (c & r & Eh & Hc). rewrite Eh in *. rewrite Hc, He. reflexivity.
  - intros l HF Hwf [|f] rest Hf Hr; [simpl in Hf; lia|].
    inversion Hwf as [| | |? Hnd Hw]; subst.
    cbn [json_dumps]. cbn [app pvalue].
    replace (Ascii.eqb "{"%char c_quote) with false by reflexivity.
    replace (Ascii.eqb "{"%char "{"%char) with true by reflexivity.
    set (pm := fun kv : string * json => match kv with (k, v) => jquote k ++ ":"%char :: json_dumps v end) in *.
    destruct l as [|x l].
    + cbn. reflexivity.
    + assert (Helems: forall l x f rest, Forall (fun kv : string * json => wfj (snd kv) -> forall fuel rest,
                 cost (snd kv) <= fuel -> no_digit_head rest -> pvalue fuel (json_dumps (snd kv) ++ rest) = Ok (snd kv, rest)) (x :: l) ->
               Forall (fun kv => wfj (snd kv)) (x :: l) ->
               list_sum (map (fun kv : string * json => match kv with (_, v) => S (cost v) end) (x :: l)) <= f ->
               pmembers f (join [","%char] (map pm (x :: l)) ++ "}"%char :: rest) = Ok (x :: l, rest)).
      { clear -pm. induction l as [|y l IH]; intros [k v] f rest HF Hw Hf.
        - inversion HF as [|? ? Hx _]; subst. inversion Hw as [|? ? Wx _]; subst.
          destruct f as [|f]; [simpl in Hf; lia|].
          cbn [map join pm]. unfold jquote. rewrite <- !app_assoc. cbn [app pmembers].
          replace (Ascii.eqb c_quote c_quote) with true by reflexivity. cbn [negb].
          rewrite <- !app_assoc. cbn [app].
          rewrite pstring_quote. cbn [bind fst snd skip_ws].
          replace (is_ws ":"%char) with false by reflexivity.
          replace (Ascii.eqb ":"%char ":"%char) with true by reflexivity. cbn [negb].
          rewrite skip_ws_dumps. cbn [snd] in Hx.
          rewrite Hx; [|exact Wx|simpl in Hf; lia|simpl; repeat split; try reflexivity; discriminate].
          cbn. rewrite l2s_s2l. reflexivity.
        - inversion HF as [|? ? Hx HF']; subst. inversion Hw as [|? ? Wx Hw']; subst.
          destruct f as [|f]; [simpl in Hf; lia|].
          cbn [map]. rewrite join_cons. cbn [map]. 
          unfold pm at 1. unfold jquote. cbn [app pmembers].
          replace (Ascii.eqb c_quote c_quote) with true by reflexivity. cbn [negb].
          rewrite <- !app_assoc. cbn [app]. rewrite <- ?app_assoc.
          rewrite pstring_quote. cbn [bind fst snd skip_ws app].
          replace (is_ws ":"%char) with false by reflexivity.
          replace (Ascii.eqb ":"%char ":"%char) with true by reflexivity. cbn [negb].
          rewrite skip_ws_dumps. cbn [snd] in Hx.
          rewrite Hx; [|exact Wx|simpl in Hf; lia|simpl; repeat split; try reflexivity; discriminate].
          cbn [bind fst snd app skip_ws is_ws].
          replace (is_ws ","%char) with false by reflexivity.
          replace (Ascii.eqb ","%char "}"%char) with false by reflexivity.
          replace (Ascii.eqb ","%char ","%char) with true by reflexivity.
          assert (Hs: skip_ws (join [","%char] (pm y :: map pm l) ++ "}"%char :: rest)
                      = join [","%char] (pm y :: map pm l) ++ "}"%char :: rest).
          { rewrite join_cons, <- app_assoc. destruct y as [k' v']. reflexivity. }
          rewrite Hs. change (pm y :: map pm l) with (map pm (y :: l)).
          rewrite IH; auto; [cbn; rewrite l2s_s2l; auto|].
          cbn [map list_sum fold_right] in Hf |- *. lia. }
      assert (Hs: skip_ws ((join [","%char] (map pm (x :: l)) ++ ["}"%char]) ++ rest)
                  = join [","%char] (map pm (x :: l)) ++ "}"%char :: rest).
      { cbn [map]. rewrite join_cons, <- !app_assoc. destruct x as [k v]. reflexivity. }
      rewrite Hs. cbn [cost] in Hf.
      assert (Hh: exists c r, join [","%char] (map pm (x :: l)) ++ "}"%char :: rest = c :: r /\ Ascii.eqb c "}"%char = false).
      { cbn [map]. rewrite join_cons, <- app_assoc. destruct x as [k v]. eexists _, _; split; [reflexivity|reflexivity]. }
      pose proof (Helems l x f rest HF Hw ltac:(lia)) as He.
      destruct Hh as (c & r & Eh & Hc). rewrite Eh in *. rewrite Hc, He.
      cbn [bind fst snd]. rewrite is_obj_build_id; auto.
Qed.

Lemma join_length_ge : forall sep ps, list_sum (map (@length ascii) ps) <= length (join sep ps).
Proof.
  induction ps as [|p ps IH]; auto.
  rewrite join_cons. cbn [map list_sum fold_right]. rewrite app_length.
  destruct ps as [|q qs]; [simpl; lia|].
  rewrite app_length. fold (list_sum (map (@length ascii) (q :: qs))). lia.
Qed.

Lemma jquote_length : forall s, 2 <= length (jquote s).
Proof. intros s. unfold jquote. simpl. rewrite app_length. simpl. lia. Qed.

Lemma cost_length : forall j, S (cost j) <= 2 * length (json_dumps j).
Proof.
  apply (json_ind' (fun j => S (cost j) <= 2 * length (json_dumps j))).
  - intros s. cbn [cost json_dumps]. pose proof (jquote_length s). lia.
  - intros n. cbn [cost json_dumps]. destruct (dec n) eqn:E; [destruct (dec_nonempty _ E)|]. simpl. lia.
  - intros l H. cbn [cost json_dumps length]. rewrite app_length. cbn [length].
    pose proof (join_length_ge [","%char] (map json_dumps l)) as Hj.
    assert (list_sum (map (fun x => S (cost x)) l) <= 2 * list_sum (map (@length ascii) (map json_dumps l))).
    { clear Hj. induction H as [|x l Hx Hl IH]; simpl; auto.
      change (S (cost x) + list_sum (map (fun x => S (cost x)) l) <=
        2 * (length (json_dumps x) + list_sum (map (@length ascii) (map json_dumps l)))). lia. }
    lia.
  - intros l H. cbn [cost json_dumps length]. rewrite app_length. cbn [length].
    set (pm := fun kv : string * json => match kv with (k, v) => jquote k ++ ":"%char :: json_dumps v end).
    pose proof (join_length_ge [","%char] (map pm l)) as Hj.
    assert (list_sum (map (fun kv : string * json => match kv with (_, v) => S (cost v) end) l)
            <= 2 * list_sum (map (@length ascii) (map pm l))).
    { clear Hj. induction H as [|[k x] l Hx Hl IH]; simpl; auto.
      change (S (cost x) + list_sum (map (fun kv : string * json => match kv with (_, v) => S (cost v) end) l) <=
        2 * (length (jquote k ++ ":"%char :: json_dumps x) + list_sum (map (@length ascii) (map pm l)))).
      rewrite app_length. simpl in *. lia. }
    lia.
Qed.

Lemma skip_ws_spaces : forall n l, skip_ws (repeat " "%char n ++ l) = skip_ws l.
Proof. induction n; intros; simpl; auto. Qed.

Theorem json_loads_dumps : forall j n, wfj j ->
  json_loads (json_dumps j ++ repeat " "%char n) = Ok j.
Proof.
  intros j n Hwf. unfold json_loads.
  rewrite skip_ws_dumps. rewrite pvalue_dumps; auto.
  - cbn [bind fst snd]. rewrite <- (app_nil_r (repeat _ _)), skip_ws_spaces. reflexivity.
  - rewrite app_length. pose proof (cost_length j). lia.
  - destruct n; simpl; auto. repeat split; try reflexivity; discriminate.
Qed.

Lemma jescape_ascii : forall c x, In x (jescape c) -> (N_of_ascii x < 128)%N.
Proof.
  intros [[] [] [] [] [] [] [] []] x H; vm_compute in H;
  repeat (destruct H as [<-|H]; [reflexivity|]); destruct H.
Qed.
