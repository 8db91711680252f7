From Coq Require Import ZArith String List Bool Lia FinFun.
From Verif Require Import Common Dict Book_Model Book_Spec.
Import ListNotations.
Local Open Scope string_scope.
Local Open Scope list_scope.
Local Open Scope Z_scope.

Lemma item_ind' : forall (P : item -> Prop),
  (forall k c i e ms, Forall P ms -> P (Item k c i e ms)) -> forall x, P x.
Proof.
  intros P H. fix IH 1. intros [k c i e ms]. apply H.
  induction ms as [|m ms IHms]; constructor; [apply IH|assumption].
Qed.

Lemma dget_map : forall {V W} (f : V -> W) (d : list (pystr * V)) k,
  dget pystr_eqb (map (fun kv => (fst kv, f (snd kv))) d) k = option_map f (dget pystr_eqb d k).
Proof.
  induction d as [|[k' v] d IH]; intros k; simpl; [reflexivity|].
  destruct (pystr_eqb k' k); [reflexivity|apply IH].
Qed.
Lemma dget_app : forall {V} (d d' : list (pystr * V)) k,
  dget pystr_eqb (d ++ d') k = match dget pystr_eqb d k with Some v => Some v | None => dget pystr_eqb d' k end.
Proof.
  induction d as [|[k' v] d IH]; intros d' k; simpl; [reflexivity|].
  destruct (pystr_eqb k' k); [reflexivity|apply IH].
Qed.
Lemma lacks_none : forall d k, lacks d k -> dget pystr_eqb d k = None.
Proof. intros. apply (dget_none pystr_eqb pystr_eqb_eq). assumption. Qed.
Lemma lacks_filter : forall (p : pystr * jval -> bool) d k, lacks d k -> lacks (filter p d) k.
Proof.
  intros p d k H I. apply H. apply in_map_iff in I. destruct I as [x [E I]].
  apply filter_In in I. apply in_map_iff. exists x. tauto.
Qed.
Definition trims (en ed : bool) := en || ed.

Lemma dump_root : forall en ed k b i e, dget pystr_eqb (dump en ed k b i e) (root_item k) = Some b.
Proof. intros. unfold dump. simpl. rewrite pystr_eqb_refl. reflexivity. Qed.
Lemma root_inj : forall k k', root_item k = root_item k' -> k = k'.
Proof. intros [] [] H; try reflexivity; discriminate. Qed.
Lemma root_index : forall k, pystr_eqb K_index (root_item k) = false.
Proof. intros []; reflexivity. Qed.
Lemma root_index' : forall k, pystr_eqb (root_item k) K_index = false.
Proof. intros []; reflexivity. Qed.

Lemma dump_other : forall en ed k b i e k', no_root_keys e -> k' <> k ->
  dget pystr_eqb (dump en ed k b i e) (root_item k') = None.
Proof.
  intros en ed k b i e k' [_ H] D. unfold dump. cbn [dget].
  destruct (pystr_eqb (root_item k) (root_item k')) eqn:E.
  { apply pystr_eqb_eq in E. apply root_inj in E. congruence. }
  rewrite dget_app.
  assert (A : dget pystr_eqb (if en then filter (fun kv : pystr * jval => negb (is_none (snd kv))) e else e) (root_item k') = None).
  { apply lacks_none. destruct en; [apply lacks_filter|]; apply H. }
  destruct i as [z|]; [|destruct (en || ed)]; cbn [dget]; rewrite ?root_index; exact A.
Qed.
Lemma dump_index : forall en ed k b i e, no_root_keys e ->
  dget pystr_eqb (dump en ed k b i e) K_index =
  match i with Some z => Some (JInt z) | None => if trims en ed then None else Some JNone end.
Proof.
  intros en ed k b i e [H _]. unfold dump, trims. cbn [dget]. rewrite root_index', dget_app.
  destruct i as [z|]; [|destruct (en || ed)]; cbn [dget].
  - reflexivity.
  - apply lacks_none. destruct en; [apply lacks_filter|]; apply H.
  - reflexivity.
Qed.

Definition body (en ed : bool) (x : item) : jval :=
  match x with
  | Item KBook c _ _ ms =>
      match number 0 (map (to_dict en ed) ms) with [] => JObj c [] | l => JObj c [(K_blueprints, JList l)] end
  | Item _ c _ _ _ => JObj c []
  end.
Lemma to_dict_eq : forall en ed x,
  to_dict en ed x = dump en ed (item_kind x) (body en ed x) (item_index x) (item_extras x).
Proof.
  intros en ed [[] c i e ms]; try reflexivity. cbn -[number dump]. destruct (number 0 (map (to_dict en ed) ms)); reflexivity.
Qed.

Lemma clean_extras : forall x, clean x -> no_root_keys (item_extras x).
Proof. intros x H. inversion H; subst; simpl; assumption. Qed.

(** The entry emitted for a member. *)
Definition entry (en ed : bool) (n : Z) (x : item) : list (pystr * jval) :=
  if has_key K_index (to_dict en ed x) then to_dict en ed x else to_dict en ed x ++ [(K_index, JInt n)].
Definition kept (trim : bool) (n : Z) (x : item) : option Z :=
  match item_index x with Some z => Some z | None => if trim then Some n else None end.
Definition jindex (o : option Z) : jval := match o with Some z => JInt z | None => JNone end.

Lemma entry_lookups : forall en ed n x, clean x ->
  dget pystr_eqb (entry en ed n x) (root_item (item_kind x)) = Some (body en ed x) /\
  (forall k', k' <> item_kind x -> dget pystr_eqb (entry en ed n x) (root_item k') = None) /\
  dget pystr_eqb (entry en ed n x) K_index = Some (jindex (kept (trims en ed) n x)).
Proof.
  intros en ed n x H. apply clean_extras in H. unfold entry, has_key.
  rewrite to_dict_eq, dump_index by assumption. unfold kept, jindex.
  destruct (item_index x) as [z|] eqn:E; [|destruct (trims en ed) eqn:T].
  - split; [apply dump_root|]. split; [intros; apply dump_other; assumption|].
    rewrite dump_index by assumption. reflexivity.
  - split; [rewrite dget_app, dump_root; reflexivity|]. split.
    + intros k' D. rewrite dget_app, dump_other by assumption. cbn [dget]. rewrite root_index. reflexivity.
    + rewrite dget_app, dump_index by assumption. rewrite T. reflexivity.
  - split; [apply dump_root|]. split; [intros; apply dump_other; assumption|].
    rewrite dump_index by assumption. rewrite T. reflexivity.
Qed.

Lemma dispatch_own : forall {V} (fs : list (pystr * V)) k v,
  dget pystr_eqb fs (root_item k) = Some v ->
  (forall k', k' <> k -> dget pystr_eqb fs (root_item k') = None) -> dispatch fs = Some (k, v).
Proof.
  intros V fs k v H O. unfold dispatch.
  destruct k; rewrite ?(O KBlueprint), ?(O KDeconstruction), ?(O KUpgrade), ?(O KBook), ?H by discriminate; reflexivity.
Qed.

Definition with_views (d : list (pystr * jval)) := map (fun kv : pystr * jval => (fst kv, (snd kv, interp (snd kv)))) d.
Lemma with_views_get : forall d k, dget pystr_eqb (with_views d) k = option_map (fun v => (v, interp v)) (dget pystr_eqb d k).
Proof. intros. unfold with_views. apply (dget_map (fun v => (v, interp v))). Qed.

Lemma element_own : forall d k b, dget pystr_eqb d (root_item k) = Some b ->
  (forall k', k' <> k -> dget pystr_eqb d (root_item k') = None) ->
  from_element d = construct true k (interp b) (match dget pystr_eqb d K_index with Some v => v | None => JNone end).
Proof.
  intros d k b H O. unfold from_element. simpl. fold (with_views d).
  rewrite (dispatch_own (with_views d) k (b, interp b)).
  - unfold index_of_dict. rewrite with_views_get. destruct (dget pystr_eqb d K_index); reflexivity.
  - rewrite with_views_get, H. reflexivity.
  - intros k' D. rewrite with_views_get, O by assumption. reflexivity.
Qed.

(** The re-imported object. *)
Definition in_u16 (o : option Z) : bool := is_index_ok (jindex o).
Fixpoint renumbered (trim : bool) (pos : option Z) (x : item) : item :=
  match x with
  | Item k c i _ ms =>
      Item k c (match i with Some z => Some z | None => pos end) []
        ((fix go (n : Z) (l : list item) : list item :=
            match l with [] => [] | m :: r => renumbered trim (if trim then Some n else None) m :: go (n + 1) r end) 0 ms)
  end.
Fixpoint renumber_list (trim : bool) (n : Z) (l : list item) : list item :=
  match l with [] => [] | m :: r => renumbered trim (if trim then Some n else None) m :: renumber_list trim (n + 1) r end.
Lemma renumbered_eq : forall trim pos k c i e ms, renumbered trim pos (Item k c i e ms) =
  Item k c (match i with Some z => Some z | None => pos end) [] (renumber_list trim 0 ms).
Proof.
  intros. simpl. f_equal. generalize 0. induction ms as [|m ms IH]; intros n; simpl; [reflexivity|].
  f_equal. apply IH.
Qed.
(** Do the indices fit? *)
Fixpoint fits (trim : bool) (x : item) : bool :=
  match x with
  | Item _ _ _ _ ms =>
      (fix go (n : Z) (l : list item) : bool :=
         match l with [] => true | m :: r => in_u16 (kept trim n m) && fits trim m && go (n + 1) r end) 0 ms
  end.
Fixpoint fits_list (trim : bool) (n : Z) (l : list item) : bool :=
  match l with [] => true | m :: r => in_u16 (kept trim n m) && fits trim m && fits_list trim (n + 1) r end.
Lemma fits_eq : forall trim k c i e ms, fits trim (Item k c i e ms) = fits_list trim 0 ms.
Proof.
  intros. simpl. generalize 0. induction ms as [|m ms IH]; intros n; simpl; [reflexivity|].
  f_equal. apply IH.
Qed.

Definition loads (r : result item) (ok : bool) (x : item) : Prop := r = if ok then Ok x else Err DataFormatError.

Lemma body_load : forall en ed x, clean x ->
  (forall n m, In m (item_members x) ->
     from_element (entry en ed n m) =
       if in_u16 (kept (trims en ed) n m) && fits (trims en ed) m
       then Ok (renumbered (trims en ed) (if trims en ed then Some n else None) m) else Err DataFormatError) ->
  as_body (interp (body en ed x)) (item_kind x) =
    if fits (trims en ed) x then Ok (item_content x, [], renumber_list (trims en ed) 0 (item_members x)) else Err DataFormatError.
Proof.
  intros en ed x C IH. inversion C as [c i e ms H HM|k c i e K H]; subst.
  - rewrite fits_eq. cbn [item_members item_kind item_content] in *.
    assert (G : forall n, mapM_elements (map interp (number n (map (to_dict en ed) ms))) =
                if fits_list (trims en ed) n ms then Ok (renumber_list (trims en ed) n ms) else Err DataFormatError).
    { clear C H HM. induction ms as [|m ms IHms]; intros n; [reflexivity|].
      cbn [map number mapM_elements fits_list renumber_list].
      change (as_element (interp (JObj [] (if has_key K_index (to_dict en ed m) then to_dict en ed m else to_dict en ed m ++ [(K_index, JInt n)]))))
        with (from_element (entry en ed n m)).
      rewrite IH by (left; reflexivity).
      destruct (in_u16 (kept (trims en ed) n m) && fits (trims en ed) m); cbn [bind andb]; [|reflexivity].
      rewrite IHms by (intros; apply IH; right; assumption).
      destruct (fits_list (trims en ed) (n + 1) ms); reflexivity. }
    cbn [body]. destruct (number 0 (map (to_dict en ed) ms)) as [|a l] eqn:E.
    + assert (ms = []) by (destruct ms; [reflexivity|discriminate]). subst. reflexivity.
    + specialize (G 0). rewrite E in G.
      change (as_body (interp (JObj c [(K_blueprints, JList (a :: l))])) KBook)
        with (let* m := mapM_elements (map interp (a :: l)) in Ok (c, @nil (pystr * jval), m)).
      rewrite G. destruct (fits_list (trims en ed) 0 ms); reflexivity.
  - destruct k; try reflexivity; congruence.
Qed.

Lemma entry_load : forall en ed x, clean x -> forall n,
  from_element (entry en ed n x) =
    if in_u16 (kept (trims en ed) n x) && fits (trims en ed) x
    then Ok (renumbered (trims en ed) (if trims en ed then Some n else None) x) else Err DataFormatError.
Proof.
  intros en ed x. induction x as [k c i e ms IH] using item_ind'. intros C n.
  destruct (entry_lookups en ed n (Item k c i e ms) C) as [A [B D]].
  rewrite (element_own _ _ _ A B), D. unfold construct. rewrite body_load.
  - destruct (fits (trims en ed) (Item k c i e ms)); [|rewrite andb_false_r; reflexivity].
    cbn [bind andb item_content item_kind item_members]. rewrite andb_true_r.
    fold (in_u16 (kept (trims en ed) n (Item k c i e ms))).
    destruct (in_u16 (kept (trims en ed) n (Item k c i e ms))); [|reflexivity].
    cbn [negb]. rewrite renumbered_eq. unfold kept, jindex. cbn [item_index].
    destruct i as [z|]; [reflexivity|]. destruct (trims en ed); reflexivity.
  - assumption.
  - cbn [item_members]. intros n' m I. rewrite Forall_forall in IH. apply IH; [assumption|].
    inversion C; subst; [auto|contradiction].
Qed.

Lemma top_load : forall en ed strict x, clean x ->
  load_as (item_kind x) strict (to_dict en ed x) =
    if (negb strict || in_u16 (item_index x)) && fits (trims en ed) x
    then Ok (renumbered (trims en ed) None x) else Err DataFormatError.
Proof.
  intros en ed strict x C. unfold load_as. fold (with_views (to_dict en ed x)).
  rewrite with_views_get, to_dict_eq, dump_root. cbn [option_map].
  unfold index_of_dict. rewrite with_views_get, dump_index by (apply clean_extras; assumption).
  unfold construct. rewrite body_load; [|assumption|].
  - destruct (fits (trims en ed) x); [|rewrite andb_false_r; reflexivity].
    cbn [bind]. rewrite andb_true_r. destruct x as [k c i e ms]. cbn [item_index item_content item_members item_kind].
    rewrite renumbered_eq. destruct i as [z|]; [|destruct (trims en ed)]; cbn [option_map].
    + unfold in_u16. cbn [jindex]. destruct (is_index_ok (JInt z)), strict; reflexivity.
    + destruct strict; reflexivity.
    + destruct strict; reflexivity.
  - intros n m I. apply entry_load. inversion C; subst; [auto|contradiction].
Qed.

(** ** The shape of what comes back *)
Lemma renumber_nth : forall trim l n j m, nth_error l j = Some m ->
  nth_error (renumber_list trim n l) j = Some (renumbered trim (if trim then Some (n + Z.of_nat j) else None) m).
Proof.
  induction l as [|a l IH]; intros n [|j] m H; try discriminate; simpl in *.
  - injection H as <-. rewrite Z.add_0_r. reflexivity.
  - rewrite (IH (n + 1) j m H). repeat f_equal. destruct trim; [|reflexivity]. f_equal. lia.
Qed.
Lemma renumber_length : forall trim l n, List.length (renumber_list trim n l) = List.length l.
Proof. induction l as [|a l IH]; intros n; simpl; [reflexivity|f_equal; apply IH]. Qed.
Lemma renumbered_same : forall trim x pos, same_shape x (renumbered trim pos x).
Proof.
  intros trim. induction x as [k c i e ms IH] using item_ind'. intros pos. rewrite renumbered_eq. constructor.
  generalize 0. induction IH as [|m ms H _ IHms]; intros n; simpl; constructor; auto.
Qed.
Lemma renumbered_index : forall trim pos x, item_index (renumbered trim pos x) =
  match item_index x with Some z => Some z | None => pos end.
Proof. intros trim pos [k c i e ms]. reflexivity. Qed.
Lemma kept_is : forall trim n x, kept trim (Z.of_nat n) x = kept_index trim n x.
Proof. intros. reflexivity. Qed.
Lemma renumbered_pinned : forall trim x pos, indices_pinned trim x (renumbered trim pos x).
Proof.
  intros trim. induction x as [k c i e ms IH] using item_ind'. intros pos. rewrite renumbered_eq. constructor.
  - symmetry. apply renumber_length.
  - intros n m m' H H'. rewrite (renumber_nth trim ms 0 n m H) in H'. injection H' as <-. split.
    + rewrite renumbered_index. unfold kept_index. destruct (item_index m); [reflexivity|]. destruct trim; reflexivity.
    + rewrite Forall_forall in IH. apply IH. eapply nth_error_In. eassumption.
Qed.
Lemma in_u16_iff : forall o, in_u16 o = true <-> forall z, o = Some z -> 0 <= z < 65536.
Proof.
  intros [z|]; unfold in_u16; cbn [jindex is_index_ok].
  - rewrite andb_true_iff, Z.leb_le, Z.ltb_lt. split; [intros H z' E; injection E as <-; lia|intros H; specialize (H z eq_refl); lia].
  - split; [discriminate|reflexivity].
Qed.
Lemma fits_iff : forall trim x, fits trim x = true <-> indices_fit trim x.
Proof.
  intros trim. induction x as [k c i e ms IH] using item_ind'. rewrite fits_eq.
  assert (G : forall n0, fits_list trim (Z.of_nat n0) ms = true <->
    forall n m, nth_error ms n = Some m -> (forall z, kept_index trim (n0 + n) m = Some z -> 0 <= z < 65536) /\ indices_fit trim m).
  { clear k c i e. induction IH as [|m ms H _ IHms]; intros n0; cbn [fits_list].
    - split; [intros _ [|n] m D; discriminate|reflexivity].
    - rewrite !andb_true_iff, in_u16_iff, H, kept_is.
      replace (Z.of_nat n0 + 1) with (Z.of_nat (S n0)) by lia. rewrite IHms. split.
      + intros [[A B] D] [|n] m' E.
        * injection E as <-. rewrite Nat.add_0_r. split; assumption.
        * rewrite Nat.add_succ_r. apply (D n m' E).
      + intros A. split.
        * specialize (A O m eq_refl). rewrite Nat.add_0_r in A. exact A.
        * intros n m' E. specialize (A (S n) m' E). rewrite Nat.add_succ_r in A. exact A. }
  rewrite (G O). split.
  - intros A. constructor. exact A.
  - intros A. inversion A; subst. assumption.
Qed.

Lemma reimport_spec : forall en ed x, clean x ->
  (forall z, item_index x = Some z -> 0 <= z < 65536) -> indices_fit (en || ed) x ->
  exists y, load_as (item_kind x) true (to_dict en ed x) = Ok y /\ same_shape x y /\
    item_index y = item_index x /\ indices_pinned (en || ed) x y.
Proof.
  intros en ed x C I F. exists (renumbered (en || ed) None x). rewrite top_load by assumption.
  apply fits_iff in F. fold (trims en ed) in F. rewrite F, (proj2 (in_u16_iff _) I). split; [reflexivity|].
  split; [apply renumbered_same|]. split; [|apply renumbered_pinned].
  rewrite renumbered_index. destruct (item_index x); reflexivity.
Qed.
Lemma reimport_fails : forall en ed x, clean x -> ~ indices_fit (en || ed) x -> forall strict,
  load_as (item_kind x) strict (to_dict en ed x) = Err DataFormatError.
Proof.
  intros en ed x C F strict. rewrite top_load by assumption.
  destruct (fits (trims en ed) x) eqn:E; [apply fits_iff in E; contradiction|].
  rewrite andb_false_r. reflexivity.
Qed.
Lemma generic_same : forall en ed x, clean x ->
  get_blueprintable_from_JSON (to_dict en ed x) = load_as (item_kind x) true (to_dict en ed x).
Proof.
  intros en ed x C. unfold get_blueprintable_from_JSON, load_as. fold (with_views (to_dict en ed x)).
  apply clean_extras in C.
  rewrite (dispatch_own (with_views (to_dict en ed x)) (item_kind x) (body en ed x, interp (body en ed x))).
  - rewrite with_views_get, to_dict_eq, dump_root. reflexivity.
  - rewrite with_views_get, to_dict_eq, dump_root. reflexivity.
  - intros k' D. rewrite with_views_get, to_dict_eq, dump_other by assumption. reflexivity.
Qed.

(** ** The exported list *)
Lemma number_nth : forall l i n d, nth_error l n = Some d ->
  nth_error (number i l) n = Some (JObj [] (if has_key K_index d then d else d ++ [(K_index, JInt (i + Z.of_nat n))])).
Proof.
  induction l as [|a l IH]; intros i [|n] d H; try discriminate.
  - injection H as <-. simpl. rewrite Z.add_0_r. reflexivity.
  - cbn [number nth_error] in *. replace (i + Z.of_nat (S n)) with (i + 1 + Z.of_nat n) by lia. apply IH. assumption.
Qed.
Lemma number_length : forall l i, List.length (number i l) = List.length l.
Proof. induction l as [|a l IH]; intros i; simpl; [reflexivity|f_equal; apply IH]. Qed.

Lemma export_spec : forall en ed c i e ms, ms <> [] -> no_root_keys e -> (forall m, In m ms -> no_root_keys (item_extras m)) ->
  exists entries,
    holds (to_dict en ed (Item KBook c i e ms)) (root_item KBook) (JObj c [(K_blueprints, JList entries)]) /\
    List.length entries = List.length ms /\
    forall n m, nth_error ms n = Some m -> exists d,
      nth_error entries n = Some (JObj [] d) /\
      holds d K_index (match kept_index (en || ed) n m with Some z => JInt z | None => JNone end) /\
      (forall key, key <> K_index -> dget pystr_eqb d key = dget pystr_eqb (to_dict en ed m) key).
Proof.
  intros en ed c i e ms NE H HM. exists (number 0 (map (to_dict en ed) ms)). split; [|split].
  - unfold holds. rewrite to_dict_eq. cbn [item_kind]. rewrite dump_root. cbn [body].
    destruct ms; [congruence|]. reflexivity.
  - rewrite number_length, map_length. reflexivity.
  - intros n m E. exists (entry en ed (Z.of_nat n) m). split.
    + rewrite (number_nth _ 0 n (to_dict en ed m)) by (apply map_nth_error; assumption). reflexivity.
    + assert (X : no_root_keys (item_extras m)) by (apply HM; eapply nth_error_In; eassumption).
      unfold entry, has_key, holds, kept_index. rewrite !to_dict_eq, dump_index by assumption.
      destruct (item_index m) as [z|] eqn:M; [|destruct (trims en ed) eqn:T; unfold trims in T; rewrite T].
      * split; [rewrite dump_index by assumption; reflexivity|reflexivity].
      * split.
        { rewrite dget_app, dump_index by assumption. unfold trims. rewrite T. reflexivity. }
        { intros key D. rewrite dget_app. destruct (dget pystr_eqb (dump en ed _ _ _ _) key); [reflexivity|].
          cbn [dget]. destruct (pystr_eqb K_index key) eqn:F; [apply pystr_eqb_eq in F; congruence|reflexivity]. }
      * split; [rewrite dump_index by assumption; unfold trims; rewrite T; reflexivity|reflexivity].
Qed.
Lemma export_empty : forall en ed c i e,
  holds (to_dict en ed (Item KBook c i e [])) (root_item KBook) (JObj c []).
Proof. intros. unfold holds. rewrite to_dict_eq. apply dump_root. Qed.

Lemma positions_distinct : forall n m (ms : list item) x y, nth_error ms n = Some x -> nth_error ms m = Some y ->
  item_index x = None -> item_index y = None -> emitted_index n x = emitted_index m y -> n = m.
Proof. intros n m ms x y _ _ Hx Hy E. unfold emitted_index in E. rewrite Hx, Hy in E. lia. Qed.
