(** The part of Python's [json] module used on safetensors headers
    (sd_mecha/streaming.py:133-134, 254, 297): [json.dumps(x, separators=(',', ':'))]
    with its default [ensure_ascii=True], and [json.loads].
    Values: strings, non-negative integers, arrays, objects.
    Simplifications: characters are 8-bit; [json_loads] answers [Err Unmodelled]
    (never a value) on the JSON constructs outside this fragment (negative or
    fractional numbers, true/false/null, [\u] escapes above 00ff). *)
From Coq Require Import String Ascii List Bool Arith NArith Lia.
From Verif Require Import Base Dec.
Import ListNotations.

Inductive json : Type :=
| JStr (s : string)
| JNum (n : N)
| JArr (l : list json)
| JObj (l : list (string * json)).

Section JsonInd.
  Variable P : json -> Prop.
  Hypothesis HS : forall s, P (JStr s).
  Hypothesis HN : forall n, P (JNum n).
  Hypothesis HA : forall l, Forall P l -> P (JArr l).
  Hypothesis HO : forall l, Forall (fun kv => P (snd kv)) l -> P (JObj l).
  Fixpoint json_ind' (j : json) : P j :=
    match j with
    | JStr s => HS s
    | JNum n => HN n
    | JArr l => HA l ((fix go (l : list json) : Forall P l :=
                         match l with
                         | [] => Forall_nil _
                         | x :: l' => Forall_cons _ (json_ind' x) (go l')
                         end) l)
    | JObj l => HO l ((fix go (l : list (string * json)) : Forall (fun kv => P (snd kv)) l :=
                         match l with
                         | [] => Forall_nil _
                         | x :: l' => Forall_cons _ (json_ind' (snd x)) (go l')
                         end) l)
    end.
End JsonInd.

(** named characters *)
Definition c_quote : ascii := ascii_of_N 34.
Definition c_bslash : ascii := ascii_of_N 92.
Definition c_nl : ascii := ascii_of_N 10.
Definition c_cr : ascii := ascii_of_N 13.
Definition c_tab : ascii := ascii_of_N 9.
Definition c_bs : ascii := ascii_of_N 8.
Definition c_ff : ascii := ascii_of_N 12.

(** ** json.dumps *)

Definition hexdigit (n : N) : ascii :=
  if (n <? 10)%N then ascii_of_N (48 + n) else ascii_of_N (87 + n).

(** one character of [py_encode_basestring_ascii] *)
Definition jescape (c : ascii) : chars :=
  if Ascii.eqb c c_quote then [c_bslash; c_quote]
  else if Ascii.eqb c c_bslash then [c_bslash; c_bslash]
  else if Ascii.eqb c c_nl then [c_bslash; "n"%char]
  else if Ascii.eqb c c_cr then [c_bslash; "r"%char]
  else if Ascii.eqb c c_tab then [c_bslash; "t"%char]
  else if Ascii.eqb c c_bs then [c_bslash; "b"%char]
  else if Ascii.eqb c c_ff then [c_bslash; "f"%char]
  else if ((32 <=? N_of_ascii c) && (N_of_ascii c <=? 126))%N then [c]
  else [c_bslash; "u"%char; "0"%char; "0"%char;
        hexdigit (N_of_ascii c / 16); hexdigit (N_of_ascii c mod 16)].

Definition jquote (s : string) : chars :=
  c_quote :: flat_map jescape (s2l s) ++ [c_quote].

(** [sep.join(parts)] *)
Fixpoint join (sep : chars) (parts : list chars) : chars :=
  match parts with
  | [] => []
  | [p] => p
  | p :: ps => p ++ sep ++ join sep ps
  end.

Fixpoint json_dumps (j : json) : chars :=
  match j with
  | JStr s => jquote s
  | JNum n => dec n
  | JArr l => "["%char :: join [","%char] (map json_dumps l) ++ ["]"%char]
  | JObj l => "{"%char ::
      join [","%char] (map (fun kv => match kv with (k, v) => jquote k ++ ":"%char :: json_dumps v end) l)
      ++ ["}"%char]
  end.

(** ** json.loads *)

Definition is_ws (c : ascii) : bool :=
  Ascii.eqb c " "%char || Ascii.eqb c c_tab || Ascii.eqb c c_nl || Ascii.eqb c c_cr.

Fixpoint skip_ws (l : chars) : chars :=
  match l with
  | c :: l' => if is_ws c then skip_ws l' else l
  | [] => []
  end.

Definition hexval (c : ascii) : option N :=
  let n := N_of_ascii c in
  if ((48 <=? n) && (n <=? 57))%N then Some (n - 48)%N
  else if ((97 <=? n) && (n <=? 102))%N then Some (n - 87)%N
  else if ((65 <=? n) && (n <=? 70))%N then Some (n - 55)%N
  else None.

(** body of a string literal, after the opening quote *)
Fixpoint pstring (l : chars) : result (chars * chars) :=
  match l with
  | [] => Err JSONDecodeError
  | c :: l1 =>
    if Ascii.eqb c c_quote then Ok ([], l1)
    else if Ascii.eqb c c_bslash then
      match l1 with
      | [] => Err JSONDecodeError
      | e :: l2 =>
        let simple x := let* p := pstring l2 in Ok (x :: fst p, snd p) in
        if Ascii.eqb e c_quote then simple c_quote
        else if Ascii.eqb e c_bslash then simple c_bslash
        else if Ascii.eqb e "/"%char then simple "/"%char
        else if Ascii.eqb e "n"%char then simple c_nl
        else if Ascii.eqb e "r"%char then simple c_cr
        else if Ascii.eqb e "t"%char then simple c_tab
        else if Ascii.eqb e "b"%char then simple c_bs
        else if Ascii.eqb e "f"%char then simple c_ff
        else if Ascii.eqb e "u"%char then
          match l2 with
          | h1 :: h2 :: h3 :: h4 :: l3 =>
            match hexval h1, hexval h2, hexval h3, hexval h4 with
            | Some 0%N, Some 0%N, Some a, Some b =>
              let* p := pstring l3 in Ok (ascii_of_N (16 * a + b) :: fst p, snd p)
            | Some _, Some _, Some _, Some _ => Err Unmodelled
            | _, _, _, _ => Err JSONDecodeError
            end
          | _ => Err JSONDecodeError
          end
        else Err JSONDecodeError
      end
    else if (N_of_ascii c <? 32)%N then Err JSONDecodeError
    else let* p := pstring l1 in Ok (c :: fst p, snd p)
  end.

(** maximal run of digits *)
Fixpoint digits (l : chars) : chars * chars :=
  match l with
  | c :: l' => if is_digit c then let p := digits l' in (c :: fst p, snd p) else ([], l)
  | [] => ([], [])
  end.

(** a JSON number: no leading zeros; fractions and exponents unmodelled *)
Definition pnumber (l : chars) : result (N * chars) :=
  match l with
  | "0"%char :: rest =>
    match rest with
    | "."%char :: _ | "e"%char :: _ | "E"%char :: _ => Err Unmodelled
    | _ => Ok (0%N, rest)
    end
  | _ =>
    let (ds, rest) := digits l in
    match rest with
    | "."%char :: _ | "e"%char :: _ | "E"%char :: _ => Err Unmodelled
    | _ => Ok (undec ds, rest)
    end
  end.

Definition is_obj_build (l : list (string * json)) : list (string * json) :=
  dupdate String.eqb [] l.

Fixpoint pvalue (fuel : nat) (l : chars) : result (json * chars) :=
  match fuel with
  | O => Err OutOfFuel
  | S f =>
    match l with
    | [] => Err JSONDecodeError
    | c :: r =>
      if Ascii.eqb c c_quote then
        let* p := pstring r in Ok (JStr (l2s (fst p)), snd p)
      else if Ascii.eqb c "{"%char then
        match skip_ws r with
        | [] => Err JSONDecodeError
        | c1 :: r1 =>
          if Ascii.eqb c1 "}"%char then Ok (JObj [], r1)
          else let* p := pmembers f (c1 :: r1) in Ok (JObj (is_obj_build (fst p)), snd p)
        end
      else if Ascii.eqb c "["%char then
        match skip_ws r with
        | [] => Err JSONDecodeError
        | c1 :: r1 =>
          if Ascii.eqb c1 "]"%char then Ok (JArr [], r1)
          else let* p := pelems f (c1 :: r1) in Ok (JArr (fst p), snd p)
        end
      else if is_digit c then
        let* p := pnumber l in Ok (JNum (fst p), snd p)
      else if Ascii.eqb c "-"%char || Ascii.eqb c "t"%char || Ascii.eqb c "f"%char
              || Ascii.eqb c "n"%char || Ascii.eqb c "N"%char || Ascii.eqb c "I"%char
      then Err Unmodelled
      else Err JSONDecodeError
    end
  end
(** members of a non-empty object, starting at the opening quote of a key *)
with pmembers (fuel : nat) (l : chars) : result (list (string * json) * chars) :=
  match fuel with
  | O => Err OutOfFuel
  | S f =>
    match l with
    | [] => Err JSONDecodeError
    | c :: r =>
      if negb (Ascii.eqb c c_quote) then Err JSONDecodeError else
      let* ks := pstring r in
      match skip_ws (snd ks) with
      | [] => Err JSONDecodeError
      | col :: r1 =>
        if negb (Ascii.eqb col ":"%char) then Err JSONDecodeError else
        let* v := pvalue f (skip_ws r1) in
        match skip_ws (snd v) with
        | [] => Err JSONDecodeError
        | c2 :: r2 =>
          if Ascii.eqb c2 "}"%char then Ok ([(l2s (fst ks), fst v)], r2)
          else if Ascii.eqb c2 ","%char then
            let* more := pmembers f (skip_ws r2) in
            Ok ((l2s (fst ks), fst v) :: fst more, snd more)
          else Err JSONDecodeError
        end
      end
    end
  end
(** elements of a non-empty array *)
with pelems (fuel : nat) (l : chars) : result (list json * chars) :=
  match fuel with
  | O => Err OutOfFuel
  | S f =>
    let* v := pvalue f l in
    match skip_ws (snd v) with
    | [] => Err JSONDecodeError
    | c2 :: r2 =>
      if Ascii.eqb c2 "]"%char then Ok ([fst v], r2)
      else if Ascii.eqb c2 ","%char then
        let* more := pelems f (skip_ws r2) in
        Ok (fst v :: fst more, snd more)
      else Err JSONDecodeError
    end
  end.

(** [json.loads(text)]: one value surrounded by white space *)
Definition json_loads (l : chars) : result json :=
  let* p := pvalue (S (2 * length l)) (skip_ws l) in
  match skip_ws (snd p) with
  | [] => Ok (fst p)
  | _ => Err JSONDecodeError
  end.
