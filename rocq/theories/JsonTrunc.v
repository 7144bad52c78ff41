(** A truncated or zero-filled JSON text never parses: [json_loads] answers
    JSONDecodeError on every proper prefix of the text of an object, followed by
    nothing or by a NUL character. *)
From Coq Require Import String Ascii List Bool Arith NArith Lia.
From Verif Require Import Base Dec Json JsonProofs.
Import ListNotations.

Definition nul : ascii := ascii_of_N 0.
Definition bad (t : chars) : Prop := t = [] \/ exists r, t = nul :: r.

Lemma bad_skip : forall t, bad t -> skip_ws t = t.
Proof. intros t [->|[r ->]]; reflexivity. Qed.
Lemma bad_nodigit : forall t, bad t -> no_digit_head t.
Proof. intros t [->|[r ->]]; simpl; auto. repeat split; try reflexivity; discriminate. Qed.
Lemma bad_pvalue : forall t f, bad t -> pvalue (S f) t = Err JSONDecodeError.
Proof. intros t f [->|[r ->]]; reflexivity. Qed.
Lemma bad_pstring : forall t, bad t -> pstring t = Err JSONDecodeError.
Proof. intros t [->|[r ->]]; reflexivity. Qed.

Lemma jescape_shape : forall c,
  jescape c = [c] \/ (exists x, jescape c = [c_bslash; x]) \/
  exists a b, jescape c = [c_bslash; "u"%char; "0"%char; "0"%char; a; b].
Proof.
  intros c. unfold jescape.
  repeat match goal with |- context [if ?b then _ else _] => destruct b; [eauto; fail|] end.
  destruct ((32 <=? N_of_ascii c) && (N_of_ascii c <=? 126))%N; eauto.
Qed.

Lemma pstring_esc_trunc : forall c n t, bad t -> n < length (jescape c) ->
  pstring (firstn n (jescape c) ++ t) = Err JSONDecodeError.
Proof.
  intros c n t Ht Hn.
  destruct (jescape_shape c) as [E|[(x & E)|(a & b & E)]]; rewrite E in *; simpl in Hn.
  - assert (n = 0) by lia. subst. simpl. apply bad_pstring; auto.
  - destruct n as [|[|n]]; [apply bad_pstring; auto| |lia].
    destruct Ht as [->|[r ->]]; reflexivity.
  - destruct n as [|[|[|[|[|[|n]]]]]]; [apply bad_pstring; auto| | | | | |lia];
      destruct Ht as [->|[r ->]]; try reflexivity; cbn [firstn app];
      (destruct r as [|r0 [|r1 [|r2 [|r3 r]]]]; try reflexivity;
       cbn; repeat match goal with |- context [hexval ?a] => destruct (hexval a) as [[|?]|] end; reflexivity).
Qed.

Lemma firstn_app_lt : forall A n (a b : list A), n <= length a -> firstn n (a ++ b) = firstn n a.
Proof. intros. rewrite firstn_app. replace (n - length a) with 0 by lia. simpl. apply app_nil_r. Qed.
Lemma firstn_app_ge : forall A n (a b : list A), length a <= n -> firstn n (a ++ b) = a ++ firstn (n - length a) b.
Proof. intros. rewrite firstn_app. rewrite firstn_all2 by lia. auto. Qed.

Lemma pstring_trunc : forall l n t, bad t -> n < length (flat_map jescape l ++ [c_quote]) ->
  pstring (firstn n (flat_map jescape l ++ [c_quote]) ++ t) = Err JSONDecodeError.
Proof.
  induction l as [|c l IH]; intros n t Ht Hn.
  - simpl in Hn. assert (n = 0) by lia. subst. apply bad_pstring; auto.
  - cbn [flat_map] in *. rewrite <- app_assoc in *. rewrite app_length in Hn.
    destruct (le_lt_dec (length (jescape c)) n) as [H|H].
    + rewrite firstn_app_ge by auto. rewrite <- app_assoc, pstring_step, IH; auto. lia.
    + rewrite firstn_app_lt by lia. apply pstring_esc_trunc; auto.
Qed.

Definition trunc_spec (j : json) : Prop := wfj j -> forall fuel n t, bad t ->
  2 * length (firstn n (json_dumps j) ++ t) < fuel -> n < length (json_dumps j) ->
  let r := pvalue fuel (firstn n (json_dumps j) ++ t) in
  match j with
  | JNum _ => r = Err JSONDecodeError \/ exists m, r = Ok (m, t)
  | _ => r = Err JSONDecodeError
  end.

Lemma trunc_weak : forall j, trunc_spec j -> wfj j -> forall fuel n t, bad t ->
  2 * length (firstn n (json_dumps j) ++ t) < fuel -> n < length (json_dumps j) ->
  pvalue fuel (firstn n (json_dumps j) ++ t) = Err JSONDecodeError \/
  exists m, pvalue fuel (firstn n (json_dumps j) ++ t) = Ok (m, t).
Proof.
  intros j H Hw fuel n t Ht Hf Hn. specialize (H Hw fuel n t Ht Hf Hn). cbv zeta in H.
  destruct j; auto.
Qed.

Lemma skip_ws_trunc : forall c l n t, is_ws c = false -> bad t -> skip_ws (firstn n (c :: l) ++ t) = firstn n (c :: l) ++ t.
Proof.
  intros c l [|n] t Hc Ht; simpl; [apply bad_skip; auto|]. rewrite Hc; auto.
Qed.

Lemma head_trunc : forall j rest n t, bad t ->
  skip_ws (firstn n (json_dumps j ++ rest) ++ t) = firstn n (json_dumps j ++ rest) ++ t.
Proof.
  intros j rest n t Ht. destruct (json_dumps_head j) as (c & l & E & Hc). rewrite E.
  rewrite <- app_comm_cons. apply skip_ws_trunc; auto.
Qed.

Theorem pvalue_trunc : forall j, trunc_spec j.
Proof.
  apply (json_ind' trunc_spec).
  - intros s _ fuel n t Ht Hf Hn. cbv zeta. destruct fuel as [|f]; [lia|].
    cbn [json_dumps] in *. unfold jquote in *. destruct n as [|n]; [simpl firstn; simpl app; apply bad_pvalue; auto|].
    cbn [firstn app pvalue]. replace (Ascii.eqb c_quote c_quote) with true by reflexivity.
    rewrite pstring_trunc; auto. simpl in Hn. lia.
  - intros m _ fuel n t Ht Hf Hn. cbv zeta. destruct fuel as [|f]; [lia|].
    cbn [json_dumps] in *. destruct n as [|n]; [left; simpl firstn; simpl app; apply bad_pvalue; auto|].
    right. destruct (dec m) as [|c l] eqn:E; [simpl in Hn; lia|].
    cbn [firstn app pvalue].
    assert (Hdig : forall x, In x (c :: l) -> is_digit x = true) by (rewrite <- E; apply dec_digits).
    assert (Hd: is_digit c = true) by (apply Hdig; simpl; auto).
    assert (Ascii.eqb c c_quote = false /\ Ascii.eqb c "{"%char = false /\ Ascii.eqb c "["%char = false) as (-> & -> & ->).
    { clear - Hd. destruct c as [[] [] [] [] [] [] [] []]; try discriminate Hd; repeat split; reflexivity. }
    rewrite Hd.
    destruct (Ascii.eqb_spec c "0"%char) as [->|Hc].
    { apply dec_head_zero in E as (_ & ->). simpl in Hn. lia. }
    assert (Hp: pnumber (c :: firstn n l ++ t) = Ok (undec (c :: firstn n l), t)).
    { assert (Hg : (let (ds, rest0) := digits ((c :: firstn n l) ++ t) in
        match rest0 with
        | "."%char :: _ | "e"%char :: _ | "E"%char :: _ => Err Unmodelled
        | _ => Ok (undec ds, rest0) end) = Ok (undec (c :: firstn n l), t)).
      { rewrite digits_app; [|intros x Hx; apply Hdig; destruct Hx as [<-|Hx]; simpl; auto; right|apply bad_nodigit; auto].
        - destruct Ht as [->|[r ->]]; reflexivity.
        - rewrite <- (firstn_skipn n l). apply in_app_iff; auto. }
      cbn [app] in Hg. clear - Hg Hc.
      destruct c as [[] [] [] [] [] [] [] []]; first [exact Hg | congruence]. }
    rewrite Hp. cbn. eauto.
  - intros l HF Hwf fuel n t Ht Hf Hn. cbv zeta. destruct fuel as [|f]; [lia|].
    inversion Hwf as [| |? Hw|]; subst.
    cbn [json_dumps] in *. destruct n as [|n]; [simpl firstn; simpl app; apply bad_pvalue; auto|].
    cbn [firstn app pvalue length] in *.
    replace (Ascii.eqb "["%char c_quote) with false by reflexivity.
    replace (Ascii.eqb "["%char "{"%char) with false by reflexivity.
    replace (Ascii.eqb "["%char "["%char) with true by reflexivity.
    destruct l as [|x l].
    { simpl in Hn. assert (n = 0) by lia. subst n. simpl firstn. simpl app. rewrite bad_skip by auto.
      destruct Ht as [->|[r ->]]; [reflexivity|]. simpl in Hf. destruct f as [|[|f]]; [lia|lia|]. reflexivity. }
    assert (Helems: forall l x f n t, bad t -> Forall trunc_spec (x :: l) -> Forall wfj (x :: l) ->
       2 * length (firstn n (join [","%char] (map json_dumps (x :: l)) ++ ["]"%char]) ++ t) + 1 < f ->
       n < length (join [","%char] (map json_dumps (x :: l)) ++ ["]"%char]) ->
       pelems f (firstn n (join [","%char] (map json_dumps (x :: l)) ++ ["]"%char]) ++ t) = Err JSONDecodeError).
    { clear. induction l as [|y l IH]; intros x f n t Ht HF Hw Hf Hn.
      - inversion HF as [|? ? Hx _]; subst. inversion Hw as [|? ? Wx _]; subst.
        destruct f as [|f]; [lia|]. cbn [map join pelems] in *.
        rewrite app_length in Hn. cbn [length] in Hn.
        destruct (le_lt_dec (length (json_dumps x)) n) as [H|H].
        + assert (n = length (json_dumps x)) by lia. subst n. rewrite firstn_app_exact in *.
          rewrite pvalue_dumps; [|auto| |apply bad_nodigit; auto].
          * cbn [bind fst snd]. rewrite bad_skip by auto. destruct Ht as [->|[r ->]]; reflexivity.
          * pose proof (cost_length x). rewrite app_length in Hf. lia.
        + rewrite firstn_app_lt in * by lia.
          destruct (trunc_weak x Hx Wx f n t Ht ltac:(lia) H) as [E|(m & E)]; rewrite E; [reflexivity|].
          cbn [bind fst snd]. rewrite bad_skip by auto. destruct Ht as [->|[r ->]]; reflexivity.
      - inversion HF as [|? ? Hx HF']; subst. inversion Hw as [|? ? Wx Hw']; subst.
        destruct f as [|f]; [lia|]. cbn [map] in Hf, Hn |- *. rewrite join_cons in Hf, Hn |- *. rewrite <- !app_assoc in Hf, Hn |- *.
        change (json_dumps y :: map json_dumps l) with (map json_dumps (y :: l)) in Hf, Hn |- *.
        cbn [pelems].
        destruct (le_lt_dec (length (json_dumps x)) n) as [H|H].
        + rewrite firstn_app_ge in * by auto. rewrite app_length in Hn. rewrite <- app_assoc in *.
          set (n' := n - length (json_dumps x)) in *.
          assert (Hn' : n' < length ([","%char] ++ join [","%char] (map json_dumps (y :: l)) ++ ["]"%char])) by (unfold n'; lia).
          rewrite pvalue_dumps; [|auto| |].
          * cbn [bind fst snd]. destruct n' as [|n'].
            { simpl firstn. simpl app. rewrite bad_skip by auto. destruct Ht as [->|[r ->]]; reflexivity. }
            cbn [app firstn length] in *. cbn [skip_ws].
            replace (is_ws ","%char) with false by reflexivity. cbv iota.
            replace (Ascii.eqb ","%char "]"%char) with false by reflexivity.
            replace (Ascii.eqb ","%char ","%char) with true by reflexivity. cbv iota.
            assert (Hs: skip_ws (firstn n' (join [","%char] (map json_dumps (y :: l)) ++ ["]"%char]) ++ t)
                      = firstn n' (join [","%char] (map json_dumps (y :: l)) ++ ["]"%char]) ++ t).
            { cbn [map]. rewrite join_cons, <- app_assoc. apply head_trunc; auto. }
            rewrite Hs. rewrite IH; auto; [|lia].
            rewrite !app_length in Hf. cbn [length] in Hf. rewrite app_length in Hf.
            rewrite app_length. lia.
          * pose proof (cost_length x). rewrite app_length in Hf. lia.
          * destruct n'; [apply bad_nodigit; auto|]. simpl. repeat split; try reflexivity; discriminate.
        + rewrite firstn_app_lt in * by lia.
          destruct (trunc_weak x Hx Wx f n t Ht ltac:(lia) H) as [E|(m & E)]; rewrite E; [reflexivity|].
          cbn [bind fst snd]. rewrite bad_skip by auto. destruct Ht as [->|[r ->]]; reflexivity. }
    assert (Hs: skip_ws (firstn n (join [","%char] (map json_dumps (x :: l)) ++ ["]"%char]) ++ t)
                = firstn n (join [","%char] (map json_dumps (x :: l)) ++ ["]"%char]) ++ t).
    { cbn [map]. rewrite join_cons, <- app_assoc. apply head_trunc; auto. }
    rewrite Hs.
    assert (He : pelems f (firstn n (join [","%char] (map json_dumps (x :: l)) ++ ["]"%char]) ++ t) = Err JSONDecodeError).
    { apply Helems; auto; [cbn [length] in Hf; lia|lia]. }
    assert (Hh: firstn n (join [","%char] (map json_dumps (x :: l)) ++ ["]"%char]) ++ t = [] \/
      exists c r, firstn n (join [","%char] (map json_dumps (x :: l)) ++ ["]"%char]) ++ t = c :: r /\ Ascii.eqb c "]"%char = false).
    { destruct n as [|n].
      { simpl. destruct Ht as [->|[r ->]]; [auto|right; eexists _, _; split; [reflexivity|reflexivity]]. }
      right. cbn [map]. rewrite join_cons, <- app_assoc.
      assert (Hc: exists c r, json_dumps x = c :: r /\ Ascii.eqb c "]"%char = false).
      { destruct x as [s|m|?|?]; try (eexists _, _; split; [reflexivity|reflexivity]).
        cbn [json_dumps]. destruct (dec m) as [|c l'] eqn:E; [destruct (dec_nonempty _ E)|].
        exists c, l'; split; auto. assert (H: is_digit c = true) by (apply (dec_digits m); rewrite E; simpl; auto).
        destruct c as [[] [] [] [] [] [] [] []]; try reflexivity; discriminate H. }
      destruct Hc as (c & r & -> & Hc). eexists _, _; split; [reflexivity|auto]. }
    destruct Hh as [E|(c & r & E & Hc)]; rewrite E in *; [reflexivity|]. rewrite Hc, He. reflexivity.
  - intros l HF Hwf fuel n t Ht Hf Hn. cbv zeta. destruct fuel as [|f]; [lia|].
    inversion Hwf as [| | |? Hnd Hw]; subst. clear Hwf Hnd.
    cbn [json_dumps] in *. destruct n as [|n]; [simpl firstn; simpl app; apply bad_pvalue; auto|].
    set (pm := fun kv : string * json => match kv with (k, v) => jquote k ++ ":"%char :: json_dumps v end) in *.
    cbn [firstn app pvalue length] in *.
    replace (Ascii.eqb "{"%char c_quote) with false by reflexivity.
    replace (Ascii.eqb "{"%char "{"%char) with true by reflexivity.
    destruct l as [|x l].
    { simpl in Hn. assert (n = 0) by lia. subst n. simpl firstn. simpl app. rewrite bad_skip by auto.
      destruct Ht as [->|[r ->]]; [reflexivity|]. simpl in Hf. destruct f as [|[|f]]; [lia|lia|]. reflexivity. }
    (* one member, then [rest] *)
    assert (Hmem: forall k v rest f n t, bad t -> trunc_spec v -> wfj v ->
       2 * length (firstn n (jquote k ++ ":"%char :: json_dumps v ++ rest) ++ t) + 1 < f ->
       n <= length (jquote k) + 1 + length (json_dumps v) ->
       pmembers f (firstn n (jquote k ++ ":"%char :: json_dumps v ++ rest) ++ t) = Err JSONDecodeError).
    { clear. intros k v rest f n t Ht Hv Wv Hf Hn. destruct f as [|f]; [lia|].
      destruct (le_lt_dec (length (jquote k)) n) as [H|H].
      - rewrite firstn_app_ge in * by auto. set (n' := n - length (jquote k)) in *.
        assert (Hn' : n' <= 1 + length (json_dumps v)) by (unfold n'; lia).
        rewrite <- app_assoc in *. rewrite app_length in Hf.
        unfold jquote at 1. cbn [app pmembers].
        replace (Ascii.eqb c_quote c_quote) with true by reflexivity. cbn [negb].
        rewrite <- !app_assoc. cbn [app]. rewrite pstring_quote. cbn [bind fst snd].
        destruct n' as [|n'].
        { simpl firstn. simpl app. rewrite bad_skip by auto. destruct Ht as [->|[r ->]]; reflexivity. }
        cbn [firstn app skip_ws length] in *. replace (is_ws ":"%char) with false by reflexivity. cbv iota.
        replace (Ascii.eqb ":"%char ":"%char) with true by reflexivity. cbn [negb].
        rewrite head_trunc by auto.
        rewrite firstn_app_lt in * by lia.
        destruct (le_lt_dec (length (json_dumps v)) n') as [H1|H1].
        + assert (n' = length (json_dumps v)) as En by lia. rewrite En in *. rewrite firstn_all in *.
          rewrite pvalue_dumps; [|auto| |apply bad_nodigit; auto].
          * cbn [bind fst snd]. rewrite bad_skip by auto. destruct Ht as [->|[r ->]]; reflexivity.
          * pose proof (cost_length v). rewrite app_length in Hf. lia.
        + destruct (trunc_weak v Hv Wv f n' t Ht ltac:(lia) H1) as [E|(m & E)]; rewrite E; [reflexivity|].
          cbn [bind fst snd]. rewrite bad_skip by auto. destruct Ht as [->|[r ->]]; reflexivity.
      - rewrite firstn_app_lt in * by lia. destruct n as [|n].
        { simpl firstn. simpl app. destruct Ht as [->|[r ->]]; reflexivity. }
        unfold jquote in *. cbn [firstn app pmembers] in *.
        replace (Ascii.eqb c_quote c_quote) with true by reflexivity. cbn [negb].
        rewrite pstring_trunc; auto. simpl in H. lia. }
    assert (Helems: forall l x f n t, bad t -> Forall (fun kv : string * json => trunc_spec (snd kv)) (x :: l) ->
       Forall (fun kv : string * json => wfj (snd kv)) (x :: l) ->
       2 * length (firstn n (join [","%char] (map pm (x :: l)) ++ ["}"%char]) ++ t) + 1 < f ->
       n < length (join [","%char] (map pm (x :: l)) ++ ["}"%char]) ->
       pmembers f (firstn n (join [","%char] (map pm (x :: l)) ++ ["}"%char]) ++ t) = Err JSONDecodeError).
    { clear - Hmem pm. induction l as [|y l IH]; intros [k v] f n t Ht HF Hw Hf Hn.
      - inversion HF as [|? ? Hx _]; subst. inversion Hw as [|? ? Wx _]; subst. cbn [snd] in *.
        cbn [map join pm] in *. rewrite <- app_assoc in *. cbn [app] in *.
        apply Hmem; auto. rewrite app_length in Hn. cbn [length] in Hn. rewrite app_length in Hn. cbn [length] in Hn. lia.
      - inversion HF as [|? ? Hx HF']; subst. inversion Hw as [|? ? Wx Hw']; subst. cbn [snd] in *.
        cbn [map] in Hf, Hn |- *. rewrite join_cons in Hf, Hn |- *. cbn [map] in Hf, Hn |- *.
        change (pm y :: map pm l) with (map pm (y :: l)) in Hf, Hn |- *.
        set (rest := [","%char] ++ join [","%char] (map pm (y :: l)) ++ ["}"%char]).
        assert (Eq: (pm (k, v) ++ [","%char] ++ join [","%char] (map pm (y :: l))) ++ ["}"%char]
                  = jquote k ++ ":"%char :: json_dumps v ++ rest).
        { unfold pm, rest. rewrite <- !app_assoc. cbn [app]. rewrite <- ?app_assoc. auto. }
        rewrite Eq in *.
        destruct (le_lt_dec n (length (jquote k) + 1 + length (json_dumps v))) as [H|H]; [apply Hmem; auto|].
        destruct f as [|f]; [lia|].
        assert (Ef : firstn n (jquote k ++ ":"%char :: json_dumps v ++ rest) =
                     jquote k ++ ":"%char :: json_dumps v ++ firstn (n - (length (jquote k) + 1 + length (json_dumps v))) rest).
        { rewrite firstn_app_ge by lia. f_equal.
          replace (n - length (jquote k)) with (S (n - length (jquote k) - 1)) by lia. cbn [firstn]. f_equal.
          rewrite firstn_app_ge by lia. do 2 f_equal. lia. }
        rewrite Ef in *. set (n' := n - (length (jquote k) + 1 + length (json_dumps v))) in *.
        assert (Hn' : n' < length rest).
        { rewrite app_length in Hn. cbn [length] in Hn. rewrite app_length in Hn. unfold n'. lia. }
        assert (Hpos : 0 < n') by (unfold n'; lia). clearbody n'. destruct n' as [|n']; [lia|].
        unfold rest in *. cbn [app firstn length] in *.
        unfold jquote at 1. cbn [app pmembers].
        replace (Ascii.eqb c_quote c_quote) with true by reflexivity. cbn [negb].
        rewrite <- !app_assoc. cbn [app]. rewrite <- ?app_assoc. rewrite pstring_quote. cbn [bind fst snd app skip_ws].
        replace (is_ws ":"%char) with false by reflexivity. cbv iota.
        replace (Ascii.eqb ":"%char ":"%char) with true by reflexivity. cbn [negb].
        rewrite skip_ws_dumps.
        rewrite !app_length in Hf. cbn [length] in Hf. rewrite !app_length in Hf. cbn [length] in Hf.
        rewrite pvalue_dumps; [|auto| |simpl; repeat split; try reflexivity; discriminate].
        + cbn [bind fst snd skip_ws]. replace (is_ws ","%char) with false by reflexivity. cbv iota.
          replace (Ascii.eqb ","%char "}"%char) with false by reflexivity.
          replace (Ascii.eqb ","%char ","%char) with true by reflexivity. cbv iota.
          assert (Hs: skip_ws (firstn n' (join [","%char] (map pm (y :: l)) ++ ["}"%char]) ++ t)
                    = firstn n' (join [","%char] (map pm (y :: l)) ++ ["}"%char]) ++ t).
          { cbn [map]. rewrite join_cons, <- app_assoc. destruct y as [k' v']. unfold pm at 1 3.
            unfold jquote. cbn [app]. apply skip_ws_trunc; auto. }
          rewrite Hs. rewrite IH; auto; [|lia].
          rewrite app_length. lia.
        + pose proof (cost_length v). lia. }
    assert (Hs: skip_ws (firstn n (join [","%char] (map pm (x :: l)) ++ ["}"%char]) ++ t)
                = firstn n (join [","%char] (map pm (x :: l)) ++ ["}"%char]) ++ t).
    { cbn [map]. rewrite join_cons, <- app_assoc. destruct x as [k v]. unfold pm at 1 3.
      unfold jquote. cbn [app]. apply skip_ws_trunc; auto. }
    rewrite Hs.
    assert (He : pmembers f (firstn n (join [","%char] (map pm (x :: l)) ++ ["}"%char]) ++ t) = Err JSONDecodeError).
    { apply Helems; auto; [cbn [length] in Hf; lia|lia]. }
    assert (Hh: firstn n (join [","%char] (map pm (x :: l)) ++ ["}"%char]) ++ t = [] \/
      exists c r, firstn n (join [","%char] (map pm (x :: l)) ++ ["}"%char]) ++ t = c :: r /\ Ascii.eqb c "}"%char = false).
    { destruct n as [|n].
      { simpl. destruct Ht as [->|[r ->]]; [auto|right; eexists _, _; split; [reflexivity|reflexivity]]. }
      right. cbn [map]. rewrite join_cons, <- app_assoc. destruct x as [k v]. eexists _, _; split; [reflexivity|reflexivity]. }
    destruct Hh as [E|(c & r & E & Hc)]; rewrite E in *; [reflexivity|]. rewrite Hc, He. reflexivity.
Qed.

Theorem json_loads_trunc : forall l n t, wfj (JObj l) -> bad t -> n < length (json_dumps (JObj l)) ->
  json_loads (firstn n (json_dumps (JObj l)) ++ t) = Err JSONDecodeError.
Proof.
  intros l n t Hw Ht Hn. unfold json_loads.
  assert (Hs: skip_ws (firstn n (json_dumps (JObj l)) ++ t) = firstn n (json_dumps (JObj l)) ++ t).
  { pose proof (head_trunc (JObj l) [] n t Ht) as H. rewrite app_nil_r in H. exact H. }
  rewrite Hs. rewrite (pvalue_trunc (JObj l) Hw); auto.
Qed.

Theorem json_loads_extra : forall j n r, wfj j ->
  json_loads (json_dumps j ++ repeat " "%char n ++ nul :: r) = Err JSONDecodeError.
Proof.
  intros j n r Hwf. unfold json_loads.
  rewrite skip_ws_dumps. rewrite pvalue_dumps; auto.
  - cbn [bind fst snd]. rewrite skip_ws_spaces. reflexivity.
  - rewrite app_length. pose proof (cost_length j). lia.
  - destruct n; simpl; auto; repeat split; try reflexivity; discriminate.
Qed.

Lemma json_loads_nul : forall r, json_loads (nul :: r) = Err JSONDecodeError.
Proof. intros r. unfold json_loads. simpl skip_ws. rewrite bad_pvalue; [reflexivity|right; eauto]. Qed.
