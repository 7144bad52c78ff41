(** C96 and C97: which file a path stands for, and what an output does to the other files. *)
From Coq Require Import String Ascii List Bool Arith Lia.
From Verif Require Import Base ModelPaths SpecPaths PathsProofs.
Import ListNotations.
Open Scope string_scope.
Open Scope list_scope.
Open Scope nat_scope.

Definition builtin_formats (fs : files) (cwd : list string) (n : nat) : list (format (list byte)) := [single_file fs cwd n].

(** C96: a model is read exactly when the place its name stands for (an absolute path itself, otherwise the first
    of the directories that has the name, otherwise the current directory) is a file that ends in .safetensors both
    under this name and, links followed, under its own; and then it is that file which is read. *)
Theorem C96_model_read_partial : forall fs cwd n dirs p x,
  open_model fs cwd n (builtin_formats fs cwd n) dirs p = Ok x <->
  exists q r, found_at fs n cwd dirs p q /\ names fs n cwd q r /\ fs r = Some (File x) /\
    is_safetensors (parts q) /\ is_safetensors r.
Proof.
  intros fs cwd n dirs p x. unfold open_model, open_path. pose proof (locate_found fs cwd n dirs p) as L. split.
  - set (q := locate fs cwd n dirs p) in *. destruct (leads_to fs cwd n Lenient q) as [r|] eqn:E; [|discriminate].
    unfold pick_format, builtin_formats. simpl. destruct (String.eqb (suffix r) ".safetensors") eqn:S; [|discriminate]. simpl.
    unfold read_safetensors. destruct (String.eqb (suffix (parts q)) ".safetensors") eqn:S'; [|discriminate]. simpl.
    destruct (leads_to fs cwd n Existing q) as [r'|] eqn:E'; [|discriminate].
    apply existing_leads in E'. assert (r' = r) as ->.
    { apply existing_lenient in E'. unfold leads_to in E. change start with base in *. congruence. }
    destruct (fs r) as [[y| |l]|] eqn:F; try discriminate. intro H. injection H as ->.
    exists q, r. apply suffix_spec in S, S'. auto.
  - intros (q & r & Q & N & F & S & S'). rewrite (found_fun _ _ _ _ _ _ _ L Q).
    assert (E := N). apply existing_lenient in E. unfold leads_to. change start with base. rewrite E.
    apply suffix_spec in S, S'. unfold pick_format, builtin_formats. simpl. rewrite S'. simpl.
    unfold read_safetensors. rewrite S. simpl. unfold leads_to. change start with base. apply existing_leads in N. rewrite N, F. reflexivity.
Qed.
Print Assumptions C96_model_read_partial.

(** a model that is reported missing is at none of these places *)
Theorem C96_missing : forall fs cwd n dirs p,
  open_model fs cwd n (builtin_formats fs cwd n) dirs p = Err FileNotFoundError ->
  nowhere fs n cwd p /\ (absolute p = false -> forall d, In d dirs -> nowhere fs n cwd (below d p)).
Proof.
  intros fs cwd n dirs p. unfold open_model, open_path. pose proof (locate_found fs cwd n dirs p) as L.
  set (q := locate fs cwd n dirs p) in *. destruct (leads_to fs cwd n Lenient q) as [r|]; [|discriminate].
  unfold pick_format, builtin_formats. simpl. destruct (String.eqb (suffix r) ".safetensors"); [|discriminate]. simpl.
  unfold read_safetensors. destruct (String.eqb (suffix (parts q)) ".safetensors"); [|discriminate]. simpl.
  destruct (leads_to fs cwd n Existing q) as [r'|] eqn:E.
  { destruct (fs r') as [[| |]|]; discriminate. }
  intros _. assert (N : nowhere fs n cwd q).
  { intros r' H. apply existing_leads in H. unfold leads_to in E. change start with base in *. congruence. }
  destruct L as [A|b d a r' A D B M|A B].
  - split; [exact N|]. congruence.
  - elim (N r' M).
  - split; [exact N|]. intros _ d I. apply B, I.
Qed.
Print Assumptions C96_missing.

(** the layout of the cache of huggingface_hub: a link from a name to a file named by its hash.  The name ends in
    .safetensors and leads to the file, and the model is refused. *)
Definition hub : files := fun q =>
  if list_eq_dec string_dec q ["hub"] then Some Dir
  else if list_eq_dec string_dec q ["hub"; "blobs"] then Some Dir
  else if list_eq_dec string_dec q ["hub"; "blobs"; "d41d"] then Some (File (s2l "data"))
  else if list_eq_dec string_dec q ["hub"; "main"] then Some Dir
  else if list_eq_dec string_dec q ["hub"; "main"; "x.safetensors"] then Some (Link (path_of "../blobs/d41d"))
  else if list_eq_dec string_dec q ["hub"; "main"; "y.safetensors"] then Some (File (s2l "other"))
  else if list_eq_dec string_dec q ["hub"; "z.safetensors"] then Some (Link (path_of "/hub/main/../main/y.safetensors"))
  else None.
Theorem C96_model_read_refuted : exists fs cwd n dirs p q x,
  found_at fs n cwd dirs p q /\ holds fs n cwd q x /\ is_safetensors (parts p) /\ is_safetensors (parts q) /\
  open_model fs cwd n (builtin_formats fs cwd n) dirs p = Err RuntimeError.
Proof.
  exists hub, [], 40, [path_of "/hub/main"], (path_of "x.safetensors"), (path_of "/hub/main/x.safetensors"), (s2l "data").
  assert (N : names hub 40 [] (path_of "/hub/main/x.safetensors") ["hub"; "blobs"; "d41d"]).
  { apply existing_leads. reflexivity. }
  repeat split.
  - change (path_of "/hub/main/x.safetensors") with (below (path_of "/hub/main") (path_of "x.safetensors")).
    eapply (found_dir _ _ _ _ _ []); [reflexivity | reflexivity | intros e [] | exact N].
  - exists ["hub"; "blobs"; "d41d"]. split; [exact N | reflexivity].
  - apply suffix_spec. reflexivity.
  - apply suffix_spec. reflexivity.
Qed.
Print Assumptions C96_model_read_refuted.

(** the second directory has it, by way of a link; an absolute name; the current directory *)
Example C96_case :
  open_model hub ["hub"; "main"] 40 (builtin_formats hub ["hub"; "main"] 40) [path_of "/hub/blobs"; path_of ".."] (path_of "z.safetensors") = Ok (s2l "other") /\
  open_model hub ["hub"] 40 (builtin_formats hub ["hub"] 40) [path_of "/hub/main"] (path_of "/hub/z.safetensors") = Ok (s2l "other") /\
  open_model hub ["hub"; "main"] 40 (builtin_formats hub ["hub"; "main"] 40) [] (path_of "./y.safetensors") = Ok (s2l "other") /\
  open_model hub ["hub"] 40 (builtin_formats hub ["hub"] 40) [] (path_of "y.safetensors") = Err FileNotFoundError /\
  found_at hub 40 ["hub"; "main"] [path_of "/hub/blobs"; path_of ".."] (path_of "z.safetensors") (path_of "../z.safetensors").
Proof.
  do 4 (split; [reflexivity|]).
  change (path_of "../z.safetensors") with (below (path_of "..") (path_of "z.safetensors")).
  eapply (found_dir _ _ _ _ _ [_]); [reflexivity | reflexivity | | apply existing_leads; reflexivity].
  intros e [<-|[]]. apply exists_false. reflexivity.
Qed.

(** C96: how a name is read: it is absolute when it starts with a slash; slashes separate its components, in
    order; empty components and dots do not count, any other one does. *)
Theorem C96_name : forall s, (absolute (path_of s) = true <-> exists t, s = String "/" t) /\
  (forall a b, s = (a ++ "/" ++ b)%string -> parts (path_of s) = parts (path_of a) ++ parts (path_of b)) /\
  ((forall a b, s <> (a ++ "/" ++ b)%string) -> parts (path_of s) = if in_dec string_dec s [""; "."] then [] else [s]).
Proof.
  intro s. split; [|split].
  - destruct s as [|c s]; [split; [discriminate | intros [t E]; discriminate]|].
    split; [|intros [t E]; injection E as -> _; reflexivity].
    intro H. exists s. f_equal. change (match c with "/"%char => true | _ => false end = true) in H.
    destruct c as [[] [] [] [] [] [] [] []]; try discriminate; reflexivity.
  - intros a b ->. unfold path_of, parts. rewrite !s2l_app. change (s2l "/" ++ s2l b) with ("/"%char :: s2l b).
    rewrite split_slash_app, map_app, filter_app. reflexivity.
  - intro N. unfold path_of, parts. rewrite split_slash_none.
    + cbn [map filter]. rewrite l2s_s2l. destruct (in_dec string_dec s [""; "."]) as [I|I].
      * destruct I as [<-|[<-|[]]]; reflexivity.
      * destruct (String.eqb_spec s ""); [elim I; left; auto|]. destruct (String.eqb_spec s "."); [elim I; right; left; auto|].
        reflexivity.
    + intro I. apply in_split in I. destruct I as (a & b & E). apply (N (l2s a) (l2s b)). apply s2l_inj.
      rewrite !s2l_app, !s2l_l2s. exact E.
Qed.
Print Assumptions C96_name.
Example C96_name_case : path_of "//models/./v1//x.safetensors" = path_of "/models/v1/x.safetensors/" /\
  path_of "a/../.b" = Path false ["a"; ".."; ".b"] /\ path_of "." = Path false [].
Proof. vm_compute. repeat split. Qed.

(** C96: names share an open file exactly when they stand for the same one *)
Theorem C96_same_file : forall fs cwd n dirs p p' q q' r r',
  found_at fs n cwd dirs p q -> found_at fs n cwd dirs p' q' -> names fs n cwd q r -> names fs n cwd q' r' ->
  (cache_key fs cwd n dirs p = cache_key fs cwd n dirs p' <-> r = r').
Proof.
  intros fs cwd n dirs p p' q q' r r' Q Q' N N'. unfold cache_key.
  rewrite (found_fun _ _ _ _ _ _ _ (locate_found fs cwd n dirs p) Q), (found_fun _ _ _ _ _ _ _ (locate_found fs cwd n dirs p') Q').
  unfold leads_to. change start with base. apply existing_lenient in N, N'. rewrite N, N'. split; congruence.
Qed.
Print Assumptions C96_same_file.
Example C96_same_case :
  cache_key hub ["hub"] 40 [] (path_of "z.safetensors") = cache_key hub ["hub"] 40 [] (path_of "main/y.safetensors") /\
  names hub 40 ["hub"] (path_of "z.safetensors") ["hub"; "main"; "y.safetensors"].
Proof. split; [reflexivity | apply existing_leads; reflexivity]. Qed.

(** C96: a file is read by the one format that matches its real path; none or several raise RuntimeError.  Formats
    have distinct names, and registering one leaves the others as they are. *)
Theorem C96_formats : forall D (formats : list (format D)) fs cwd n q r,
  leads_to fs cwd n Lenient q = Some r ->
  (exists before f after, formats = before ++ f :: after /\ f_matches f r = true /\
     (forall g, In g (before ++ after) -> f_matches g r = false) /\ open_path fs cwd n formats q = f_read f q) \/
  ((forall before f after, formats = before ++ f :: after -> f_matches f r = true ->
      exists g, In g (before ++ after) /\ f_matches g r = true) /\
   open_path fs cwd n formats q = Err RuntimeError).
Proof.
  intros D formats fs cwd n q r E. unfold open_path, pick_format. rewrite E.
  assert (P : forall l : list (format D), forall f, In f (filter (fun f => f_matches f r) l) <-> In f l /\ f_matches f r = true).
  { intros l f. apply filter_In. }
  destruct (filter (fun f => f_matches f r) formats) as [|f [|g l]] eqn:F.
  - right. split; [|reflexivity]. intros before f after -> M. exfalso.
    assert (I : In f (filter (fun f => f_matches f r) (before ++ f :: after))) by (apply P; split; [apply in_elt | exact M]).
    rewrite F in I. exact I.
  - left. assert (I : In f (filter (fun f => f_matches f r) formats)) by (rewrite F; left; reflexivity).
    apply P in I. destruct I as [I M]. apply in_split in I. destruct I as (before & after & ->).
    exists before, f, after. repeat split; trivial. intros g I. destruct (f_matches g r) eqn:G; [exfalso|reflexivity].
    rewrite filter_app in F. simpl in F. rewrite M in F. apply (f_equal (@length _)) in F. rewrite app_length in F. simpl in F.
    apply in_app_or in I. assert (J : In g (filter (fun f => f_matches f r) before) \/ In g (filter (fun f => f_matches f r) after)).
    { rewrite !P. tauto. }
    destruct J as [J|J]; destruct (filter _ before); destruct (filter _ after); simpl in *; try lia; tauto.
  - right. split; [|reflexivity]. intros before h after -> M. rewrite filter_app in F. simpl in F. rewrite M in F.
    destruct (filter (fun f => f_matches f r) before) as [|k ks] eqn:B.
    + simpl in F. injection F as -> F. exists g. assert (I : In g (filter (fun f => f_matches f r) after)) by (rewrite F; left; reflexivity).
      apply P in I. destruct I. split; trivial. apply in_or_app. right. trivial.
    + exists k. assert (I : In k (filter (fun f => f_matches f r) before)) by (rewrite B; left; reflexivity).
      apply P in I. destruct I. split; trivial. apply in_or_app. left. trivial.
Qed.
Theorem C96_register : forall D (reg reg' : list (format D)) f,
  NoDup (map f_identifier reg) -> register_format reg f = Ok reg' ->
  reg' = reg ++ [f] /\ NoDup (map f_identifier reg').
Proof.
  intros D reg reg' f N. unfold register_format. destruct (existsb _ reg) eqn:E; [discriminate|]. intro H. injection H as <-.
  split; [reflexivity|]. rewrite map_app. apply NoDup_app_iff. repeat split; trivial.
  - repeat constructor; intros [].
  - intros x I [J|[]]. subst x. apply in_map_iff in I. destruct I as (g & G & I).
    assert (X : existsb (fun g => String.eqb (f_identifier g) (f_identifier f)) reg = true).
    { apply existsb_exists. exists g. split; trivial. apply String.eqb_eq. exact G. }
    congruence.
Qed.
Print Assumptions C96_formats.
Print Assumptions C96_register.
Example C96_formats_case : forall read,
  open_path hub [] 40 [single_file hub [] 40; Format "blob" (fun r => String.eqb (suffix r) "") read] (path_of "hub/main/x.safetensors") = read (path_of "hub/main/x.safetensors") /\
  open_path hub [] 40 [single_file hub [] 40; Format "all" (fun _ => true) read] (path_of "hub/main/y.safetensors") = Err RuntimeError.
Proof. intro read. split; reflexivity. Qed.

(** ** C97 *)

(** where an output goes: an absolute path is itself; a relative one is in the first directory, or in the current
    one if there is none *)
Inductive goes_to (dirs : list path) (p : path) : path -> Prop :=
| goes_absolute : absolute p = true -> goes_to dirs p p
| goes_dir : forall d rest, absolute p = false -> dirs = d :: rest -> goes_to dirs p (below d p)
| goes_here : dirs = [] -> goes_to dirs p p.
Lemma output_path_goes : forall dirs p q, goes_to dirs p q <-> output_path dirs p = q.
Proof.
  intros dirs p q. unfold output_path. split.
  - intros [A|d rest A E|E]; subst; [rewrite A | rewrite A; apply join_below, A | destruct (absolute p)]; reflexivity.
  - destruct (absolute p) eqn:A; [intros <-; apply goes_absolute, A|].
    destruct dirs as [|d rest]; intros <-; [apply goes_here | rewrite join_below by exact A; eapply goes_dir]; trivial.
Qed.
Lemma opened : forall fs cwd n dirs p r fs1, open_output fs cwd n dirs p = Ok (r, fs1) ->
  (leads fs n (base (output_path dirs p) cwd) (parts (output_path dirs p)) r \/
   can_make fs n (base (output_path dirs p) cwd) (parts (output_path dirs p)) r) /\
  (fs r = None \/ exists y, fs r = Some (File y)) /\ fs1 = set_file fs r [].
Proof.
  intros fs cwd n dirs p r fs1. unfold open_output, leads_to. destruct (follow _ _ _ _ _) as [r'|] eqn:E; [|discriminate].
  apply creating_iff in E. destruct (fs r') as [[y| |l]|] eqn:F; try discriminate; intro H; injection H as <- <-; eauto.
Qed.

(** The output is written to the file at that place, made anew if need be. *)
Theorem C97_output_place : forall fs cwd n dirs p q r fs1,
  goes_to dirs p q -> open_output fs cwd n dirs p = Ok (r, fs1) ->
  (names fs n cwd q r \/ can_make fs n (base q cwd) (parts q) r) /\ forall x, names (set_file fs1 r x) n cwd q r.
Proof.
  intros fs cwd n dirs p q r fs1 G O. apply output_path_goes in G. apply opened in O. rewrite G in O. destruct O as (L & O & ->).
  split; [exact L|]. intro x.
  assert (S : forall k, k <> r -> set_file (set_file fs r []) r x k = fs k).
  { intros k N. unfold set_file. destruct (list_eq_dec string_dec k r); [contradiction|reflexivity]. }
  assert (T : set_file (set_file fs r []) r x r = Some (File x)).
  { unfold set_file. destruct (list_eq_dec string_dec r r); [reflexivity|contradiction]. }
  destruct L as [L|L]; [exact (leads_still _ _ _ _ S T O _ _ _ _ L) | exact (made_leads _ _ _ _ S T O _ _ _ _ L eq_refl)].
Qed.
Print Assumptions C97_output_place.

(** Once written, the same name and the same directories read it back. *)
Theorem C97_read_back : forall fs cwd n dirs p r fs1 x,
  open_output fs cwd n dirs p = Ok (r, fs1) -> is_safetensors (parts p) -> is_safetensors r ->
  open_model (set_file fs1 r x) cwd n (builtin_formats (set_file fs1 r x) cwd n) dirs p = Ok x.
Proof.
  intros fs cwd n dirs p r fs1 x O S S'. apply C96_model_read_partial.
  set (q := output_path dirs p). assert (G : goes_to dirs p q) by (apply output_path_goes; reflexivity).
  destruct (C97_output_place _ _ _ _ _ _ _ _ G O) as [_ N]. specialize (N x).
  exists q, r. repeat split; trivial.
  - destruct G as [A|d rest A E|E]; subst.
    + apply found_absolute, A.
    + eapply (found_dir _ _ _ _ _ []); [exact A | reflexivity | intros e [] | exact N].
    + destruct (absolute p) eqn:A; [apply found_absolute, A|]. apply found_here; trivial. intros e [].
  - unfold set_file. destruct (list_eq_dec string_dec r r); [reflexivity|contradiction].
  - assert (P : exists pre, parts q = pre ++ parts p).
    { destruct G as [A|d rest A E|E]; subst; [exists []; reflexivity | | exists []; reflexivity].
      exists (parts d). reflexivity. }
    destruct P as [pre ->]. destruct S as (q' & a & s & ->). exists (pre ++ q'), a, s. rewrite app_assoc. reflexivity.
Qed.
Print Assumptions C97_read_back.

(** No other file changes, whatever is written: names of other files still lead to them, and their contents stay. *)
Theorem C97_other_files : forall fs cwd n dirs p r fs1 x q r' y,
  open_output fs cwd n dirs p = Ok (r, fs1) -> names fs n cwd q r' -> fs r' = Some (File y) -> r' <> r ->
  names (set_file fs1 r x) n cwd q r' /\ set_file fs1 r x r' = Some (File y).
Proof.
  intros fs cwd n dirs p r fs1 x q r' y O N F D. apply opened in O. destruct O as (_ & O & ->).
  assert (S : forall k, k <> r -> set_file (set_file fs r []) r x k = fs k).
  { intros k K. unfold set_file. destruct (list_eq_dec string_dec k r); [contradiction|reflexivity]. }
  split; [|rewrite S; trivial].
  apply (leads_still fs _ r x S); trivial. unfold set_file. destruct (list_eq_dec string_dec r r); [reflexivity|contradiction].
Qed.
Print Assumptions C97_other_files.

(** A model whose name cannot stand for the output is the same model before and after. *)
Theorem C97_models_kept_partial : forall fs cwd n dirs p r fs1 x p' y,
  open_output fs cwd n dirs p = Ok (r, fs1) ->
  (forall q, q = p' \/ (absolute p' = false /\ exists d, In d dirs /\ q = below d p') ->
     ~ names fs n cwd q r /\ ~ can_make fs n (base q cwd) (parts q) r) ->
  open_model fs cwd n (builtin_formats fs cwd n) dirs p' = Ok y ->
  open_model (set_file fs1 r x) cwd n (builtin_formats (set_file fs1 r x) cwd n) dirs p' = Ok y.
Proof.
  intros fs cwd n dirs p r fs1 x p' y O D M. apply C96_model_read_partial in M. apply C96_model_read_partial.
  destruct M as (q & r' & Q & N & F & S & S').
  assert (C : q = p' \/ (absolute p' = false /\ exists d, In d dirs /\ q = below d p')).
  { destruct Q as [A|b d a r0 A E B H|A B]; auto. right. split; trivial. exists d. rewrite E. split; [apply in_elt | reflexivity]. }
  assert (K : r' <> r) by (intros ->; destruct (D q C); contradiction).
  destruct (C97_other_files _ _ _ _ _ _ _ x _ _ _ O N F K) as [N' F'].
  exists q, r'. repeat split; trivial.
  apply opened in O. destruct O as (_ & O & ->).
  assert (X : absolute p' = false -> forall e, In e dirs -> nowhere fs n cwd (below e p') -> nowhere (set_file (set_file fs r []) r x) n cwd (below e p')).
  { intros A e I W k L. assert (Y : forall k, k <> r -> set_file (set_file fs r []) r x k = fs k).
    { intros z Z. unfold set_file. destruct (list_eq_dec string_dec z r); [contradiction|reflexivity]. }
    assert (T : set_file (set_file fs r []) r x r = Some (File x)).
    { unfold set_file. destruct (list_eq_dec string_dec r r); [reflexivity|contradiction]. }
    destruct (leads_before _ _ _ _ Y T O _ _ _ _ L) as [B|[-> B]].
    - exact (W k B).
    - destruct (D (below e p')) as [_ Z]; [right; split; trivial; exists e; auto | exact (Z B)]. }
  destruct Q as [A|b d a r0 A E B H|A B].
  - apply found_absolute, A.
  - eapply found_dir; eauto. intros e I. apply X; auto. rewrite E. apply in_or_app. left. exact I.
  - apply found_here; auto.
Qed.
Print Assumptions C97_models_kept_partial.

(** Saving under the name of an input: the output is opened while the input is still to be read, and empties it. *)
Theorem C97_input_emptied_refuted : exists fs cwd n dirs p y r fs1,
  open_model fs cwd n (builtin_formats fs cwd n) dirs p = Ok y /\ y <> [] /\
  open_output fs cwd n dirs p = Ok (r, fs1) /\
  open_model fs1 cwd n (builtin_formats fs1 cwd n) dirs p = Ok [].
Proof.
  exists hub, ["hub"], 40, [path_of "main"], (path_of "y.safetensors"), (s2l "other"), ["hub"; "main"; "y.safetensors"], (set_file hub ["hub"; "main"; "y.safetensors"] []).
  repeat split; discriminate.
Qed.
(** Saving into the first directory under a name that stood for a model of the second: the input stays, and the
    name (in the recipe that was just merged, too) stands for the output from then on. *)
Theorem C97_name_taken_refuted : exists fs cwd n dirs p y r fs1 x,
  open_model fs cwd n (builtin_formats fs cwd n) dirs p = Ok y /\
  open_output fs cwd n dirs p = Ok (r, fs1) /\ fs r = None /\ x <> y /\
  open_model (set_file fs1 r x) cwd n (builtin_formats (set_file fs1 r x) cwd n) dirs p = Ok x.
Proof.
  exists hub, [], 40, [path_of "/hub"; path_of "/hub/main"], (path_of "y.safetensors"), (s2l "other"), ["hub"; "y.safetensors"], (set_file hub ["hub"; "y.safetensors"] []), (s2l "merged").
  repeat split; discriminate.
Qed.
Print Assumptions C97_input_emptied_refuted.
Print Assumptions C97_name_taken_refuted.

(** a new file in the first directory; through a link to a file that is not there yet; a missing directory *)
Example C97_case :
  (exists fs1, open_output hub ["hub"] 40 [path_of "main"; path_of "blobs"] (path_of "out.safetensors") = Ok (["hub"; "main"; "out.safetensors"], fs1)) /\
  open_output hub ["hub"] 40 [path_of "none"] (path_of "out.safetensors") = Err FileNotFoundError /\
  (exists fs1, open_output hub ["hub"] 40 [path_of "none"] (path_of "/hub/../hub/w.safetensors") = Ok (["hub"; "w.safetensors"], fs1)) /\
  (forall q, q = path_of "z.safetensors" \/ (absolute (path_of "z.safetensors") = false /\ exists d, In d [path_of "main"; path_of "blobs"] /\ q = below d (path_of "z.safetensors")) ->
     ~ names hub 40 ["hub"] q ["hub"; "main"; "out.safetensors"] /\ ~ can_make hub 40 (base q ["hub"]) (parts q) ["hub"; "main"; "out.safetensors"]).
Proof.
  split; [eexists; reflexivity|]. split; [reflexivity|]. split; [eexists; reflexivity|].
  assert (H : forall q, follow hub Creating 40 (start q ["hub"]) (parts q) <> Some ["hub"; "main"; "out.safetensors"] ->
    ~ names hub 40 ["hub"] q ["hub"; "main"; "out.safetensors"] /\ ~ can_make hub 40 (base q ["hub"]) (parts q) ["hub"; "main"; "out.safetensors"]).
  { intros q N. split; intro L; apply N, creating_iff; [left | right]; exact L. }
  intros q [->|(_ & d & [<-|[<-|[]]] & ->)]; apply H; discriminate.
Qed.
