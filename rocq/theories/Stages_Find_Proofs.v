(** Which files are found, and the values of settings. *)
From Coq Require Import ZArith NArith String List Bool Lia.
From Verif Require Import Common Dict Stages_Model Stages_Spec Stages_Proofs Stages_Phase_Proofs.
Import ListNotations.
Local Open Scope string_scope.
Local Open Scope list_scope.

(** ** Names *)
Lemma in_has : forall c s, has c s = true <-> In c s.
Proof.
  intros c s. unfold has. rewrite existsb_exists. split.
  - intros (x & I & E). apply N.eqb_eq in E. subst x. exact I.
  - intros I. exists c. split; [exact I|apply N.eqb_refl].
Qed.
Lemma upto_last_parent : forall c p q, ~ In c q -> upto_last c (p ++ c :: q) = Some p.
Proof.
  intros c p q N. assert (Z : upto_last c q = None).
  { induction q as [|x q IH]; [reflexivity|]. cbn [upto_last]. rewrite IH by (intros I; apply N; right; exact I).
    destruct (N.eqb x c) eqn:E; [|reflexivity]. apply N.eqb_eq in E. destruct N. left. exact E. }
  induction p as [|x p IH]; cbn [app upto_last]; [rewrite Z, N.eqb_refl; reflexivity|rewrite IH; reflexivity].
Qed.
Lemma upto_last_none : forall c s, ~ In c s -> upto_last c s = None.
Proof.
  intros c s N. destruct (upto_last c s) as [p|] eqn:E; [|reflexivity]. destruct (upto_last_ex _ _ _ E) as (v & ->). destruct N. apply in_elt.
Qed.
Lemma parent_get : forall s p, parent s p -> get_parent s = Some p.
Proof.
  intros s p (N & q & -> & Q). unfold get_parent, before. rewrite upto_last_parent by exact Q. destruct p; [contradiction|reflexivity].
Qed.
Lemma no_parent : forall s, ~ In SLASH s -> ~ In BACKSLASH s -> get_parent s = None.
Proof. intros s A B. unfold get_parent, before. rewrite !upto_last_none by assumption. reflexivity. Qed.
Lemma strip_same : forall s, (forall r c, s <> r ++ c :: str "lua") -> strip_lua s = s.
Proof.
  intros s H. unfold strip_lua. destruct (rev s) as [|a [|u [|l [|d r]]]] eqn:E; try reflexivity.
  destruct (N.eqb a 97 && N.eqb u 117 && N.eqb l 108) eqn:X; [|reflexivity]. exfalso. rewrite !andb_true_iff, !N.eqb_eq in X. destruct X as ((-> & ->) & ->).
  apply (H (rev r) d). rewrite <- (rev_involutive s), E. cbn. rewrite <- !app_assoc. reflexivity.
Qed.
Lemma strip_suffix : forall r c, strip_lua (r ++ c :: str "lua") = r.
Proof.
  intros r c. unfold strip_lua. rewrite rev_app_distr. cbn. rewrite rev_involutive. reflexivity.
Qed.
Lemma no_tag : forall s, ~ contains s (str "__") -> find_tag s = None.
Proof.
  intros s H. destruct (find_tag s) as [t|] eqn:E; [|reflexivity]. destruct (find_tag_ex _ _ E) as (a & b & X). destruct H.
  exists a, (t ++ str "__" ++ b). rewrite X. unfold tag. rewrite <- !app_assoc. reflexivity.
Qed.
Lemma cls_iff : forall c, cls c = true <-> name_char c.
Proof.
  intros c. unfold cls, name_char, DASH, UNDER. rewrite !orb_true_iff, !andb_true_iff, !N.leb_le, !N.eqb_eq. tauto.
Qed.
Lemma map_dots : forall l, Forall (fun s => ~ In DOT s) l -> map (fun c => if N.eqb c DOT then SLASH else c) (join DOT l) = join SLASH l.
Proof.
  assert (Z : forall s, ~ In DOT s -> map (fun c => if N.eqb c DOT then SLASH else c) s = s).
  { induction s as [|x s IH]; intros N; [reflexivity|]. cbn [map]. rewrite IH by (intros I; apply N; right; exact I).
    destruct (N.eqb x DOT) eqn:E; [|reflexivity]. apply N.eqb_eq in E. destruct N. left. exact E. }
  intros l F. induction F as [|x l N F IH]; [reflexivity|]. destruct l as [|y l]; [exact (Z x N)|].
  change (join DOT (x :: y :: l)) with (x ++ DOT :: join DOT (y :: l)). change (join SLASH (x :: y :: l)) with (x ++ SLASH :: join SLASH (y :: l)).
  rewrite map_app. cbn [map]. rewrite IH, (Z x N), N.eqb_refl. reflexivity.
Qed.
Lemma join_in : forall c l x, In x (join c l) -> x = c \/ exists s, In s l /\ In x s.
Proof.
  intros c l x. induction l as [|s l IH]; [intros []|]. destruct l as [|t l].
  - intros I. right. exists s. split; [left; reflexivity|exact I].
  - change (join c (s :: t :: l)) with (s ++ c :: join c (t :: l)). rewrite in_app_iff. intros [I|[I|I]].
    + right. exists s. split; [left; reflexivity|exact I].
    + left. symmetry. exact I.
    + destruct (IH I) as [->|(u & J & K)]; [auto|]. right. exists u. split; [right; exact J|exact K].
Qed.
Lemma take_cls_app : forall t c r, Forall name_char t -> ~ name_char c -> take_cls (t ++ c :: r) = t.
Proof.
  intros t c r F N. induction F as [|x t X F IH]; cbn [app take_cls].
  - destruct (cls c) eqn:E; [apply cls_iff in E; contradiction|reflexivity].
  - apply cls_iff in X. rewrite X, IH. reflexivity.
Qed.
Lemma longest_tag : forall t acc, acc ++ t <> [] -> longest acc (t ++ str "__") = Some (acc ++ t).
Proof.
  induction t as [|x t IH]; intros acc N.
  - cbn. rewrite app_nil_r in *. destruct acc; [contradiction|]. cbn. reflexivity.
  - cbn [app longest]. rewrite IH by (rewrite <- app_assoc; destruct acc; discriminate). rewrite <- app_assoc. reflexivity.
Qed.
Lemma find_tag_front : forall t c r, t <> [] -> Forall name_char t -> ~ name_char c -> find_tag (tag t ++ c :: r) = Some t.
Proof.
  intros t c r N F C. unfold tag. cbn [str list_ascii_of_string map app find_tag under2 tl]. cbn [N.of_nat].
  assert (X : take_cls ((t ++ str "__") ++ c :: r) = t ++ str "__").
  { apply take_cls_app; [|exact C]. apply Forall_app. split; [exact F|]. repeat constructor; unfold name_char; cbn; lia. }
  cbn [str list_ascii_of_string map app] in X.
  change (find_tag (str "__" ++ (t ++ str "__") ++ c :: r) = Some t).
  cbn [str list_ascii_of_string map app find_tag under2 tl].
  change (longest [] (take_cls ((t ++ str "__") ++ c :: r))) with (longest [] (take_cls ((t ++ str "__") ++ c :: r))).
  cbn [str list_ascii_of_string map] in *. rewrite X.
  assert (L : longest [] (t ++ str "__") = Some t) by (apply (longest_tag t []); exact N).
  cbn [str list_ascii_of_string map] in L. rewrite L. reflexivity.
Qed.
Lemma replace_none : forall p r s, ~ contains s p -> replace p r s = s.
Proof.
  intros p r s H. unfold replace. induction s as [|c s IH]; [reflexivity|]. cbn [replace_from]. destruct (prefix p (c :: s)) eqn:E.
  - apply prefix_app in E. destruct E as (b & E). destruct H. exists [], b. exact E.
  - rewrite IH; [reflexivity|]. intros (a & b & ->). apply H. exists (c :: a), b. reflexivity.
Qed.
Lemma replace_skip : forall p r a s, replace_from (List.length a) p r (a ++ s) = replace_from 0 p r s.
Proof. intros p r a s. induction a as [|x a IH]; [reflexivity|]. cbn [List.length app replace_from]. exact IH. Qed.
Lemma replace_front : forall p r s, p <> [] -> ~ contains s p -> replace p r (p ++ s) = r ++ s.
Proof.
  intros p r s N H. unfold replace. destruct p as [|c p]; [contradiction|]. cbn [app replace_from].
  assert (T : prefix (c :: p) (c :: p ++ s) = true) by (apply prefix_app; exists s; reflexivity). rewrite T.
  replace (List.length (c :: p) - 1)%nat with (List.length p) by (cbn; lia). rewrite replace_skip. f_equal. exact (replace_none _ r s H).
Qed.

Section Find.
  Variables (mods : list (pystr * amod)) (files : pystr -> option chunk) (same : amod -> amod -> bool).

  (** A name without folders of mods: dots are slashes, one at the front is dropped. *)
  Theorem dotted : forall l, Forall (fun s => ~ In DOT s /\ ~ In SLASH s /\ ~ In BACKSLASH s) l ->
    (forall r c, join DOT l <> r ++ c :: str "lua") -> ~ contains (join SLASH l) (str "__") ->
    normalize mods (join DOT l) = Ok (join SLASH (match l with [] :: y :: r => y :: r | _ => l end), false).
  Proof.
    intros l F NL NT. unfold normalize. rewrite strip_same by exact NL.
    assert (D : dots (join DOT l) = join SLASH l).
    { unfold dots. destruct (has SLASH (join DOT l) || has BACKSLASH (join DOT l)) eqn:E.
      - exfalso. rewrite orb_true_iff, !in_has in E. rewrite Forall_forall in F.
        destruct E as [I|I]; apply join_in in I; destruct I as [I|(s & J & K)]; try discriminate I; destruct (F s J) as (_ & A & B); auto.
      - apply map_dots. eapply Forall_impl; [|exact F]. intros s (A & _); exact A. }
    rewrite D.
    assert (L : lead (join SLASH l) = join SLASH (match l with [] :: y :: r => y :: r | _ => l end)).
    { destruct l as [|[|c x] [|y r]]; try reflexivity; cbn [join app lead].
      - inversion F as [|? ? (_ & A & _) _]; subst. destruct (N.eqb c SLASH) eqn:E; [|reflexivity]. apply N.eqb_eq in E. destruct A. left. exact E.
      - inversion F as [|? ? (_ & A & _) _]; subst. destruct (N.eqb c SLASH) eqn:E; [|reflexivity]. apply N.eqb_eq in E. destruct A. left. exact E. }
    rewrite L. rewrite no_tag; [reflexivity|]. intros (a & b & E). apply NT. destruct l as [|[|c x] [|y r]]; try (exists a, b; exact E).
    exists (SLASH :: a), b. change (join SLASH ([] :: y :: r)) with (SLASH :: join SLASH (y :: r)). rewrite E. reflexivity.
  Qed.
  Theorem suffixed : forall r, (forall q d, r <> q ++ d :: str "lua") -> normalize mods (r ++ str ".lua") = normalize mods r.
  Proof.
    intros r X. unfold normalize. rewrite (strip_same r X). change (r ++ str ".lua") with (r ++ DOT :: str "lua"). rewrite strip_suffix. reflexivity.
  Qed.
  (** A name with the folder of a mod. *)
  Theorem named : forall t m rest, t <> [] -> Forall name_char t -> t <> str "core" -> t <> str "base" -> dget pystr_eqb mods t = Some m ->
    ~ contains (SLASH :: rest) (tag t) -> (forall r c, tag t ++ SLASH :: rest <> r ++ c :: str "lua") ->
    normalize mods (tag t ++ SLASH :: rest) = Ok (m_location m ++ SLASH :: rest, true).
  Proof.
    intros t m rest N F C B M NC NL. unfold normalize. rewrite strip_same by exact NL.
    assert (D : dots (tag t ++ SLASH :: rest) = tag t ++ SLASH :: rest).
    { unfold dots. replace (has SLASH (tag t ++ SLASH :: rest)) with true; [reflexivity|]. symmetry. apply in_has. apply in_elt. }
    rewrite D. assert (L : lead (tag t ++ SLASH :: rest) = tag t ++ SLASH :: rest) by reflexivity. rewrite L.
    rewrite find_tag_front; [|exact N|exact F|unfold name_char, SLASH; lia].
    replace (pystr_eqb t (str "core")) with false by (symmetry; apply pystr_eqb_neq; exact C).
    replace (pystr_eqb t (str "base")) with false by (symmetry; apply pystr_eqb_neq; exact B). cbn [orb]. unfold modn. rewrite M.
    rewrite replace_front; [reflexivity|discriminate|exact NC].
  Qed.

  (** ** Searching *)
  Lemma find_file_some : forall ts n f c, find_file files ts n = Some (f, c) -> first_file files n ts f /\ files f = Some c.
  Proof.
    induction ts as [|t ts IH]; intros n f c; [discriminate|]. cbn [find_file]. destruct (files (fill t n)) as [d|] eqn:E.
    - intros H. injection H as <- <-. split; [eapply first_here; exact E|exact E].
    - intros H. destruct (IH _ _ _ H) as (A & B). split; [apply first_later; assumption|exact B].
  Qed.
  Lemma find_file_none : forall ts n, find_file files ts n = None -> Forall (fun t => files (fill t n) = None) ts.
  Proof.
    induction ts as [|t ts IH]; intros n; [constructor|]. cbn [find_file]. destruct (files (fill t n)) eqn:E; [discriminate|]. intros H. constructor; [exact E|exact (IH _ H)].
  Qed.
  Lemma pieces_app : forall w cur p, clean w -> cur ++ w <> [] -> pieces cur (w ++ SEMI :: p) = (cur ++ w) :: pieces [] p.
  Proof.
    induction w as [|c w IH]; intros q p C N.
    - rewrite app_nil_r in *. cbn [app pieces]. change (N.eqb SEMI SEMI) with true. cbv iota. destruct q; [contradiction|reflexivity].
    - apply clean_cons in C. destruct C as (X & C). cbn [app pieces]. apply N.eqb_neq in X. rewrite X. rewrite IH; [|exact C|rewrite <- app_assoc; destruct q; discriminate].
      rewrite <- app_assoc. reflexivity.
  Qed.
  Lemma pieces_one : forall w cur, clean w -> cur ++ w <> [] -> pieces cur w = [cur ++ w].
  Proof.
    induction w as [|c w IH]; intros q C N.
    - rewrite app_nil_r in *. cbn. destruct q; [contradiction|reflexivity].
    - apply clean_cons in C. destruct C as (X & C). cbn [pieces]. apply N.eqb_neq in X. rewrite X. rewrite IH; [|exact C|rewrite <- app_assoc; destruct q; discriminate].
      rewrite <- app_assoc. reflexivity.
  Qed.
  Lemma pieces_front : forall ts t, Forall (fun x => clean x /\ x <> []) (ts ++ [t]) -> pieces [] (in_front ts t) = ts ++ [t].
  Proof.
    induction ts as [|x ts IH]; intros t F; inversion F as [|? ? (C & N) F']; subst.
    - cbn [in_front app]. rewrite pieces_one; auto.
    - cbn [in_front]. rewrite pieces_app by auto. rewrite IH by exact F'. reflexivity.
  Qed.
  Lemma occurs_iff : forall p s, occurs p s = true <-> contains s p.
  Proof.
    intros p s. induction s as [|c s IH].
    - cbn [occurs]. rewrite orb_false_r, prefix_app. unfold contains. split.
      + intros (r & E). exists [], r. exact E.
      + intros (a & b & E). destruct a; [|discriminate E]. exists b. exact E.
    - cbn [occurs]. rewrite orb_true_iff, IH, prefix_app. unfold contains. split.
      + intros [(r & E)|(a & b & E)]; [exists [], r; exact E|]. exists (c :: a), b. rewrite E. reflexivity.
      + intros ([|x a] & b & E); [left; exists b; exact E|]. right. cbn in E. injection E as -> ->. exists a, b. reflexivity.
  Qed.
  Lemma occurs_inside_iff : forall p s, p <> [] -> occurs_inside p s = true <-> exists a b, b <> [] /\ s = a ++ p ++ b.
  Proof.
    intros p s NP. induction s as [|c s IH].
    - cbn. split; [discriminate|]. intros (a & b & N & E). destruct a; [destruct p; [contradiction|discriminate E]|discriminate E].
    - cbn [occurs_inside]. rewrite orb_true_iff, andb_true_iff, IH, prefix_app, Nat.ltb_lt. split.
      + intros [((r & E) & L)|(a & b & N & E)].
        * exists [], r. split; [|exact E]. intros ->. rewrite E, app_nil_r in L. lia.
        * exists (c :: a), b. split; [exact N|]. rewrite E. reflexivity.
      + intros ([|x a] & b & N & E).
        * left. cbn in E. split; [exists b; exact E|]. rewrite E, app_length. destruct b; [contradiction|cbn; lia].
        * right. cbn in E. injection E as -> ->. exists a, b. auto.
  Qed.
  Lemma substitute_iff : forall name n, substitute name n = None <-> ~ dummy_name name n.
  Proof.
    intros name n. unfold substitute, dummy_name. destruct (pystr_eqb name (str "__base__/menu-simulations/menu-simulations")) eqn:E1.
    { apply pystr_eqb_eq in E1. split; [discriminate|]. intros H. destruct H. left. exact E1. }
    apply pystr_eqb_neq in E1. destruct (occurs (str "menu-simulations") n) eqn:E2.
    { apply occurs_iff in E2. split; [discriminate|]. intros H. destruct H. right. left. exact E2. }
    assert (N2 : ~ contains n (str "menu-simulations")) by (intros X; apply occurs_iff in X; congruence).
    destruct (occurs_inside (str "graphics/") n) eqn:E3.
    { apply occurs_inside_iff in E3; [|discriminate]. destruct E3 as (a & b & N & E). split; [discriminate|]. intros H. destruct H. right. right. exists a, b. auto. }
    destruct (occurs_inside (str "sound/") n) eqn:E4.
    { apply occurs_inside_iff in E4; [|discriminate]. destruct E4 as (a & b & N & E). split; [discriminate|]. intros H. destruct H. right. right. exists a, b. auto. }
    split; [|reflexivity]. intros _ [X|[X|(a & b & N & [X|X])]]; [contradiction|destruct (N2 X)|..].
    - assert (Y : occurs_inside (str "graphics/") n = true) by (apply occurs_inside_iff; [discriminate|]; exists a, b; auto). congruence.
    - assert (Y : occurs_inside (str "sound/") n = true) by (apply occurs_inside_iff; [discriminate|]; exists a, b; auto). congruence.
  Qed.

  (** After the search nothing is unsaid. *)
  Lemma grows_out : forall s s', grows s s' -> exists rest, out s' = out s ++ rest.
  Proof. intros s s' (evs & O & _). exists evs. exact O. Qed.
  Lemma old_finds : forall fuel name n b ts s s' r, normalize mods name = Ok (n, b) -> ~ dummy_name name n -> dget pystr_eqb (loaded s) name = None ->
    (forall m q, tree s = m :: q -> m_archive m = false) -> pieces [] (path s) = ts ->
    old_require mods files (require mods files same fuel) name s = (s', r) -> finds files name n ts s s' r.
  Proof.
    intros fuel name n b ts s s' r N D L A P. unfold old_require. rewrite L. unfold search. rewrite N. cbn [bind fst].
    rewrite (proj2 (substitute_iff name n) D). rewrite P.
    assert (X : match tree s with m :: _ => if m_archive m then Err AttributeError else match find_file files ts n with Some (f, c) => Ok (Chunk f c) | None => Err ValueError end
                | [] => match find_file files ts n with Some (f, c) => Ok (Chunk f c) | None => Err ValueError end end
              = match find_file files ts n with Some (f, c) => Ok (Chunk f c) | None => Err ValueError end).
    { destruct (tree s) as [|m q] eqn:T; [reflexivity|]. rewrite (A m q eq_refl). reflexivity. }
    rewrite X. destruct (find_file files ts n) as [[f c]|] eqn:F.
    - destruct (find_file_some _ _ _ _ F) as (FF & _). destruct (run (require mods files same fuel) c (say (Loads name f) s)) as [u x] eqn:Q.
      destruct (grows_out _ _ (run_grows _ (require_grows mods files same fuel) c _ _ _ Q)) as (rest & O). cbn [out say] in O. rewrite <- app_assoc in O. cbn [app] in O.
      destruct x as [e|]; intros E; injection E as <- <-; left; exists f, rest; auto.
    - intros E. injection E as <- <-. right. split; [exact (find_file_none _ _ F)|]. auto.
  Qed.
  (** [require] as [old_require] between entering and leaving. *)
  Lemma require_finds : forall fuel name n b s s1 s2 s' r ts,
    s1 = match to_push mods same name s with Some m => push_mod m s | None => s end ->
    normalize mods name = Ok (n, b) -> enter n b s1 = (s2, None) -> out s2 = out s -> loaded s2 = loaded s ->
    ~ dummy_name name n -> dget pystr_eqb (loaded s) name = None -> (forall m q, tree s2 = m :: q -> m_archive m = false) -> pieces [] (path s2) = ts ->
    require mods files same (S fuel) name s = (s', r) -> finds files name n ts s s' r.
  Proof.
    intros fuel name n b s s1 s2 s' r ts S1 N En O L D C A P. cbn [require]. rewrite <- S1, N, En.
    destruct (old_require mods files (require mods files same fuel) name s2) as [s3 y] eqn:Q.
    assert (H : finds files name n ts s s3 y).
    { pose proof (old_finds fuel name n b ts s2 s3 y N D ltac:(rewrite L; exact C) A P Q) as H. unfold finds in *. rewrite O in H. exact H. }
    destruct y as [v|e]; [|intros E; injection E as <- <-; exact H].
    assert (FIN : forall u x, out u = out s3 -> finds files name n ts s u x).
    { intros u x Ou. destruct H as [(f & rest & F & X)|(_ & _ & X)]; [left; exists f, rest; rewrite Ou; auto|discriminate X]. }
    unfold remove_path. destruct (after_semi (path s3)) as [p|]; [|intros E; injection E as <- <-; apply FIN; reflexivity].
    destruct (to_push mods same name s).
    - unfold pop_mod. destruct (tl (tree (set_path p s3))); intros E; injection E as <- <-; apply FIN; reflexivity.
    - intros E. injection E as <- <-. apply FIN. reflexivity.
  Qed.
  Lemma app_slash_clean : forall a b, clean a -> clean b -> clean (a ++ str "/" ++ b).
  Proof. intros a b A B. rewrite !clean_app. repeat split; auto. intros [X|[]]. discriminate X. Qed.
  Theorem own_files : forall fuel name n s s' r m q w ts t, clean_world mods files -> clean name -> ready s ->
    find_tag name = None -> normalize mods name = Ok (n, false) -> tree s = m :: q -> m_archive m = false -> ~ dummy_name name n ->
    dget pystr_eqb (loaded s) name = None -> own_folder m (cur s) n w -> path s = in_front ts t -> Forall (fun x => clean x /\ x <> []) (ts ++ [t]) ->
    require mods files same (S fuel) name s = (s', r) -> finds files name n (w :: ts ++ [t]) s s' r.
  Proof.
    intros fuel name n s s' r m q w ts t CW CN R FT N T A D L OF P F.
    assert (TP : to_push mods same name s = None) by (unfold to_push; rewrite FT; reflexivity).
    pose proof (normalize_clean mods files CW _ _ _ CN N) as CL. pose proof R as ((m0 & q0 & T0 & DR) & LC & CC). rewrite T in T0. injection T0 as <- <-.
    assert (CM : clean (m_location m)) by (rewrite T in LC; inversion LC; assumption).
    destruct OF as [p PA|p S1 S2 PA].
    - eapply require_finds with (s1 := s) (s2 := add_path (m_location m ++ str "/" ++ p ++ str "/?.lua") s).
      + rewrite TP. reflexivity.
      + exact N.
      + unfold enter. rewrite (parent_get _ _ PA), DR. unfold in_dir. rewrite <- ?app_assoc. reflexivity.
      + reflexivity.
      + reflexivity.
      + exact D.
      + exact L.
      + cbn. intros m1 q1 E. rewrite T in E. injection E as <- <-. exact A.
      + cbn [path add_path set_path]. assert (CP : clean p) by (eapply clean_in; [exact (get_parent_in _ _ (parent_get _ _ PA))|exact CL]).
        rewrite (pieces_app _ []); [rewrite P, pieces_front by exact F; reflexivity| |destruct (m_location m); discriminate].
        apply app_slash_clean; [exact CM|]. rewrite clean_app. split; [exact CP|]. intros I. cbn in I. repeat (destruct I as [I|I]; [discriminate|]). exact I.
    - eapply require_finds with (s1 := s) (s2 := set_cur (in_dir p n) (add_path (p ++ str "/?.lua") (set_with (Some (p ++ str "/?.lua")) s))).
      + rewrite TP. reflexivity.
      + exact N.
      + unfold enter. rewrite (no_parent n S1 S2), (parent_get _ _ PA). reflexivity.
      + reflexivity.
      + reflexivity.
      + exact D.
      + exact L.
      + cbn. intros m1 q1 E. rewrite T in E. injection E as <- <-. exact A.
      + cbn [path add_path set_path set_cur set_with]. assert (CP : clean p) by (eapply clean_in; [exact (get_parent_in _ _ (parent_get _ _ PA))|exact CC]).
        rewrite (pieces_app _ []); [rewrite P, pieces_front by exact F; reflexivity| |destruct p; discriminate].
        rewrite clean_app. split; [exact CP|]. intros I. cbn in I. repeat (destruct I as [I|I]; [discriminate|]). exact I.
  Qed.
  Theorem other_files : forall fuel name n g m p s s' r top q ts t, clean_world mods files -> clean name -> ready s ->
    find_tag name = Some g -> dget pystr_eqb mods g = Some m -> m_archive m = false -> tree s = top :: q -> m_archive top = false ->
    normalize mods name = Ok (n, true) -> parent n p -> ~ dummy_name name n ->
    dget pystr_eqb (loaded s) name = None -> path s = in_front ts t -> Forall (fun x => clean x /\ x <> []) (ts ++ [t]) ->
    require mods files same (S fuel) name s = (s', r) -> finds files name n ((p ++ str "/?.lua") :: ts ++ [t]) s s' r.
  Proof.
    intros fuel name n g m p s s' r top q ts t CW CN R FT M A T AT N PA D L P F.
    pose proof (normalize_clean mods files CW _ _ _ CN N) as CL.
    assert (CP : clean p) by (eapply clean_in; [exact (get_parent_in _ _ (parent_get _ _ PA))|exact CL]).
    assert (X : exists s1, s1 = (match to_push mods same name s with Some m => push_mod m s | None => s end) /\ path s1 = path s /\ out s1 = out s /\ loaded s1 = loaded s /\
                 forall m1 q1, tree s1 = m1 :: q1 -> m_archive m1 = false).
    { eexists. split; [reflexivity|]. unfold to_push, modn. rewrite FT, M, T. destruct (same top m).
      - repeat split; auto. intros m1 q1 E. rewrite T in E. injection E as <- <-. exact AT.
      - cbn. repeat split; auto. intros m1 q1 E. injection E as <- <-. exact A. }
    destruct X as (s1 & E1 & P1 & O1 & L1 & A1).
    eapply require_finds with (s1 := s1) (s2 := add_path (p ++ str "/?.lua") s1).
    - exact E1.
    - exact N.
    - unfold enter. rewrite (parent_get _ _ PA). reflexivity.
    - exact O1.
    - exact L1.
    - exact D.
    - exact L.
    - cbn. exact A1.
    - cbn [path add_path set_path]. rewrite P1. rewrite (pieces_app _ []); [rewrite P, pieces_front by exact F; reflexivity| |destruct p; discriminate].
      rewrite clean_app. split; [exact CP|]. intros I. cbn in I. repeat (destruct I as [I|I]; [discriminate|]). exact I.
  Qed.
  (** Names that are replaced load nothing. *)
  Theorem dummies : forall fuel name n b s s' r, normalize mods name = Ok (n, b) -> dummy_name name n -> dget pystr_eqb (loaded s) name = None ->
    require mods files same fuel name s = (s', r) -> out s' = out s /\ forall v, r = Ok v -> exists k, v = Dummy k.
  Proof.
    intros fuel name n b s s' r N D L. destruct fuel as [|fuel]; cbn [require].
    { intros E. injection E as <- <-. split; [reflexivity|discriminate]. }
    set (pushed := to_push mods same name s). set (s1 := match pushed with Some m => push_mod m s | None => s end).
    assert (S1 : out s1 = out s /\ loaded s1 = loaded s) by (unfold s1; destruct pushed; auto). clearbody s1. destruct S1 as (O1 & L1).
    rewrite N. destruct (enter n b s1) as [s2 x] eqn:En.
    assert (S2 : out s2 = out s /\ loaded s2 = loaded s).
    { unfold enter in En. destruct (get_parent n) as [p|].
      - destruct b; [|destruct (dir s1)]; injection En as <- <-; cbn; auto.
      - destruct b; cbn [set_with with_path] in En; [destruct (with_path s1)|]; injection En as <- <-; cbn; auto. }
    destruct S2 as (O2 & L2). destruct x as [e|]; [intros E; injection E as <- <-; split; [exact O2|discriminate]|].
    unfold old_require. rewrite L2, L. unfold search. rewrite N. cbn [bind fst].
    destruct (substitute name n) as [v|] eqn:S; [|apply substitute_iff in S; contradiction].
    assert (V : exists k, v = Dummy k).
    { unfold substitute in S. repeat match type of S with (if ?c then _ else _) = _ => destruct c end; try discriminate S; injection S as <-; eauto. }
    unfold remove_path. cbn [remember set_loaded path]. destruct (after_semi (path s2)) as [p|].
    2: { intros E. injection E as <- <-. split; [exact O2|discriminate]. }
    destruct pushed.
    - unfold pop_mod. cbn [tree set_path set_loaded remember]. destruct (tl (tree s2)); intros E; injection E as <- <-; (split; [exact O2|]); [discriminate|]. intros w X. injection X as <-. exact V.
    - intros E. injection E as <- <-. split; [exact O2|]. intros w X. injection X as <-. exact V.
  Qed.
  (** Archives. *)
  Theorem archives : forall fuel m stage s, m_archive m = true -> exists s', run_mod_phase mods files same fuel m stage s = (s', Some AttributeError).
  Proof. intros fuel m stage s A. unfold run_mod_phase. rewrite A. eauto. Qed.
End Find.

(** ** Settings *)
Section Settings.
  Context {V : Type}.
  Notation sets := (table (table V)).
  Lemma dset_get : forall {A} (d : table A) n v m, dget pystr_eqb (dset pystr_eqb d n v) m = if pystr_eqb n m then Some v else dget pystr_eqb d m.
  Proof. intros. apply (dget_dset _ pystr_eqb_eq). Qed.
  Lemma get_in : forall {A} (d : table A) n, dget pystr_eqb d n = None <-> ~ In n (map fst d).
  Proof. intros. apply (dget_none _ pystr_eqb_eq). Qed.
  Definition over (own given : table V) (n : pystr) : option V :=
    match dget pystr_eqb own n with Some o => match dget pystr_eqb given n with Some v => Some v | None => Some o end | None => None end.
  Lemma names_some : forall given own, NoDup (map fst given) -> exists t, overwrite_names (Some own) given = Ok (Some t) /\ forall n, dget pystr_eqb t n = over own given n.
  Proof.
    induction given as [|[k v] given IH]; intros own ND; cbn [overwrite_names].
    - exists own. split; [reflexivity|]. intros n. unfold over. cbn. destruct (dget pystr_eqb own n); reflexivity.
    - inversion ND as [|? ? NI ND']; subst. destruct (IH (match dget pystr_eqb own k with Some _ => dset pystr_eqb own k v | None => own end) ND') as (t & E & G).
      exists t. split; [exact E|]. intros n. rewrite G. unfold over. cbn [dget].
      destruct (dget pystr_eqb own k) as [o|] eqn:K.
      + rewrite dset_get. destruct (pystr_eqb k n) eqn:X.
        * apply pystr_eqb_eq in X. subst n. rewrite K. apply get_in in NI. rewrite NI. reflexivity.
        * reflexivity.
      + destruct (pystr_eqb k n) eqn:X; [|reflexivity]. apply pystr_eqb_eq in X. subst n. rewrite K. reflexivity.
  Qed.
  Lemma names_none : forall given, overwrite_names (@None (table V)) given = match given with [] => Ok None | _ => Err TypeError end.
  Proof. intros [|[k v] given]; reflexivity. Qed.
  Theorem overwritten : forall (user settings : sets), NoDup (map fst user) -> Forall (fun p => NoDup (map fst (snd p))) user ->
    (exists ty given, In (ty, given) user /\ given <> [] /\ dget pystr_eqb settings ty = None) /\ overwrite settings user = Err TypeError \/
    (forall ty given, In (ty, given) user -> given <> [] -> dget pystr_eqb settings ty <> None) /\
    exists t, overwrite settings user = Ok t /\ forall ty n, at_ t ty n =
      match at_ settings ty n with Some o => match at_ user ty n with Some v => Some v | None => Some o end | None => None end.
  Proof.
    induction user as [|[ty given] user IH]; intros settings ND F.
    { right. split; [intros ty given []|]. exists settings. split; [reflexivity|]. intros ty n. unfold at_ at 3. cbn. destruct (at_ settings ty n); reflexivity. }
    inversion ND as [|? ? NI ND']; subst. inversion F as [|? ? NG F']; subst. cbn [snd] in NG. cbn [overwrite].
    destruct (dget pystr_eqb settings ty) as [own|] eqn:K.
    - destruct (names_some given own NG) as (t & -> & G). cbn [bind].
      assert (KK : forall x, dget pystr_eqb (dset pystr_eqb settings ty t) x = None <-> dget pystr_eqb settings x = None).
      { intros x. rewrite dset_get. destruct (pystr_eqb ty x) eqn:X; [|tauto]. apply pystr_eqb_eq in X. subst x. rewrite K. split; discriminate. }
      destruct (IH (dset pystr_eqb settings ty t) ND' F') as [((a & b & I & N & D) & ->)|(A & u & -> & H)].
      + left. split; [|reflexivity]. exists a, b. split; [right; exact I|]. split; [exact N|]. apply KK. exact D.
      + right. split.
        * intros a b [I|I] N; [injection I as <- <-; congruence|]. intros Z. apply (A a b I N). apply KK. exact Z.
        * exists u. split; [reflexivity|]. intros a n. rewrite H. unfold at_ at 1 3. rewrite dset_get. destruct (pystr_eqb ty a) eqn:X.
          -- apply pystr_eqb_eq in X. subst a. rewrite K, G. unfold over. unfold at_. cbn [dget]. rewrite pystr_eqb_refl.
             apply get_in in NI. rewrite NI. destruct (dget pystr_eqb own n); [|reflexivity]. destruct (dget pystr_eqb given n); reflexivity.
          -- unfold at_ at 2. cbn [dget]. rewrite X. reflexivity.
    - rewrite names_none. destruct given as [|g given].
      + cbn [bind]. destruct (IH settings ND' F') as [((a & b & I & N & D) & ->)|(A & u & -> & H)].
        * left. split; [|reflexivity]. exists a, b. split; [right; exact I|auto].
        * right. split; [intros a b [I|I] N; [injection I as <- <-; contradiction|exact (A a b I N)]|]. exists u. split; [reflexivity|].
          intros a n. rewrite H. unfold at_ at 2. unfold at_ at 3. cbn [dget]. destruct (pystr_eqb ty a) eqn:X; [|reflexivity].
          apply pystr_eqb_eq in X. subst a. unfold at_. rewrite K. reflexivity.
      + left. split; [|reflexivity]. exists ty, (g :: given). split; [left; reflexivity|]. split; [discriminate|exact K].
  Qed.
End Settings.
