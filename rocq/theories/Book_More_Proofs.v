(** More proofs for C38: editing the list of members, and what loading rejects. *)
From Coq Require Import ZArith String List Bool Lia.
From Verif Require Import Common Dict Book_Model Book_Spec Book_Proofs.
Import ListNotations.
Local Open Scope Z_scope.

Lemma insert_at : forall l idx x, exists l1 l2, l = l1 ++ l2 /\
  list_insert l idx (Blueprintable x) = Ok (l1 ++ x :: l2) /\
  Z.of_nat (List.length l1) = clamped (Z.of_nat (List.length l)) idx.
Proof.
  intros l idx x. unfold list_insert, py_insert, clamped.
  set (n := Z.of_nat (List.length l)).
  set (i := if idx <? 0 then Z.max 0 (idx + n) else Z.min idx n).
  exists (firstn (Z.to_nat i) l), (skipn (Z.to_nat i) l).
  split; [symmetry; apply firstn_skipn|]. split; [reflexivity|].
  rewrite firstn_length. unfold i, n. destruct (Z.ltb_spec idx 0); lia.
Qed.

Lemma pos_split : forall {A} (l : list A) idx i, py_pos (Z.of_nat (List.length l)) idx = Some i ->
  exists l1 y l2, l = l1 ++ y :: l2 /\ List.length l1 = i /\
    Z.of_nat i = (if idx <? 0 then idx + Z.of_nat (List.length l) else idx).
Proof.
  intros A l idx i. unfold py_pos.
  set (j := if idx <? 0 then idx + Z.of_nat (List.length l) else idx).
  destruct ((0 <=? j) && (j <? Z.of_nat (List.length l))) eqn:E; [|discriminate].
  apply andb_true_iff in E. rewrite Z.leb_le, Z.ltb_lt in E. intros H. injection H as <-.
  destruct (nth_error l (Z.to_nat j)) as [y|] eqn:N.
  - destruct (nth_error_split l (Z.to_nat j) N) as [l1 [l2 [E1 E2]]]. exists l1, y, l2. repeat split; [assumption|assumption|lia].
  - apply nth_error_None in N. lia.
Qed.

Lemma pos_none : forall n idx, 0 <= n -> (py_pos n idx = None <-> idx < - n \/ n <= idx).
Proof.
  intros n idx Hn. unfold py_pos. destruct (Z.ltb_spec idx 0); cbv zeta;
    destruct ((0 <=? _) && (_ <? n)) eqn:E.
  - apply andb_true_iff in E. rewrite Z.leb_le, Z.ltb_lt in E. split; [discriminate|lia].
  - apply andb_false_iff in E. rewrite Z.leb_gt, Z.ltb_ge in E. split; [lia|reflexivity].
  - apply andb_true_iff in E. rewrite Z.leb_le, Z.ltb_lt in E. split; [discriminate|lia].
  - apply andb_false_iff in E. rewrite Z.leb_gt, Z.ltb_ge in E. split; [lia|reflexivity].
Qed.

Lemma replace_split : forall {A} (l1 : list A) y l2 x, replace_nth (l1 ++ y :: l2) (List.length l1) x = l1 ++ x :: l2.
Proof. induction l1 as [|a l1 IH]; intros; simpl; [reflexivity|]. rewrite IH. reflexivity. Qed.
Lemma remove_split : forall {A} (l1 : list A) y l2, remove_nth (l1 ++ y :: l2) (List.length l1) = l1 ++ l2.
Proof. induction l1 as [|a l1 IH]; intros; simpl; [reflexivity|]. rewrite IH. reflexivity. Qed.

Lemma set_at : forall l idx x l', list_set l idx (Blueprintable x) = Ok l' <->
  exists l1 y l2, l = l1 ++ y :: l2 /\ l' = l1 ++ x :: l2 /\ refers (Z.of_nat (List.length l)) idx (Z.of_nat (List.length l1)).
Proof.
  intros l idx x l'. unfold list_set, refers. destruct (py_pos (Z.of_nat (List.length l)) idx) as [i|] eqn:P.
  - destruct (pos_split l idx i P) as [l1 [y [l2 [E1 [E2 E3]]]]]. split.
    + intros H. injection H as <-. exists l1, y, l2. split; [assumption|]. split; [rewrite E1, <- E2; apply replace_split|].
      assert (List.length l1 < List.length l)%nat by (rewrite E1, app_length; simpl; lia).
      rewrite E2 in *. destruct (Z.ltb_spec idx 0); lia.
    + intros [m1 [z [m2 [F1 [F2 F3]]]]].
      assert (L : List.length m1 = i) by (rewrite <- E2; destruct (Z.ltb_spec idx 0); lia).
      subst l'. rewrite F1, <- L, replace_split. reflexivity.
  - apply pos_none in P; [|lia]. split; [discriminate|]. intros [l1 [y [l2 [E1 [_ E3]]]]].
    assert (List.length l1 < List.length l)%nat by (rewrite E1, app_length; simpl; lia). lia.
Qed.

Lemma del_at : forall l idx l', list_del l idx = Ok l' <->
  exists l1 y l2, l = l1 ++ y :: l2 /\ l' = l1 ++ l2 /\ refers (Z.of_nat (List.length l)) idx (Z.of_nat (List.length l1)).
Proof.
  intros l idx l'. unfold list_del, refers. destruct (py_pos (Z.of_nat (List.length l)) idx) as [i|] eqn:P.
  - destruct (pos_split l idx i P) as [l1 [y [l2 [E1 [E2 E3]]]]]. split.
    + intros H. injection H as <-. exists l1, y, l2. split; [assumption|]. split; [rewrite E1, <- E2; apply remove_split|].
      assert (List.length l1 < List.length l)%nat by (rewrite E1, app_length; simpl; lia).
      rewrite E2 in *. destruct (Z.ltb_spec idx 0); lia.
    + intros [m1 [z [m2 [F1 [F2 F3]]]]].
      assert (L : List.length m1 = i) by (rewrite <- E2; destruct (Z.ltb_spec idx 0); lia).
      subst l'. rewrite F1, <- L, remove_split. reflexivity.
  - apply pos_none in P; [|lia]. split; [discriminate|]. intros [l1 [y [l2 [E1 [_ E3]]]]].
    assert (List.length l1 < List.length l)%nat by (rewrite E1, app_length; simpl; lia). lia.
Qed.

Lemma list_errors : forall l idx e,
  (forall v, list_insert l idx v = Err e <-> v = Foreign /\ e = TypeError) /\
  (forall v, list_set l idx v = Err e <->
     v = Foreign /\ e = TypeError \/ (v <> Foreign /\ e = IndexError /\ (idx < - Z.of_nat (List.length l) \/ Z.of_nat (List.length l) <= idx))) /\
  (list_del l idx = Err e <-> e = IndexError /\ (idx < - Z.of_nat (List.length l) \/ Z.of_nat (List.length l) <= idx)).
Proof.
  intros l idx e. pose proof (pos_none (Z.of_nat (List.length l)) idx ltac:(lia)) as PN.
  set (out := idx < - Z.of_nat (List.length l) \/ Z.of_nat (List.length l) <= idx) in *. clearbody out.
  split; [|split].
  - intros [x|]; simpl; split; try discriminate.
    + intros [H _]. discriminate.
    + intros H. injection H as <-. auto.
    + intros [_ ->]. reflexivity.
  - intros [x|]; simpl.
    + destruct (py_pos (Z.of_nat (List.length l)) idx).
      * split; [discriminate|]. intros [[H _]|[_ [_ H]]]; [discriminate H|apply PN in H; discriminate H].
      * split; [intros H; injection H as <-; right; split; [discriminate|split; [reflexivity|apply PN; reflexivity]]|].
        intros [[H _]|[_ [-> _]]]; [discriminate|reflexivity].
    + split; [intros H; injection H as <-; left; auto|].
      intros [[_ ->]|[H _]]; [reflexivity|contradiction H; reflexivity].
  - unfold list_del. destruct (py_pos (Z.of_nat (List.length l)) idx).
    + split; [discriminate|]. intros [_ H]. apply PN in H. discriminate H.
    + split; [intros H; injection H as <-; split; [reflexivity|apply PN; reflexivity]|]. intros [-> _]. reflexivity.
Qed.

(** ** Loading *)
Lemma construct_err : forall s k v i e, construct s k v i = Err e -> as_body v k = Err e \/ e = DataFormatError.
Proof.
  intros s k v i e. unfold construct. destruct (as_body v k) as [[[c x] m]|e']; simpl.
  - destruct (s && negb (is_index_ok i)); [intros H; injection H as <-; auto|]. destruct i; discriminate.
  - intros H. injection H as <-. auto.
Qed.

(** The exceptions that loading can answer with: an unusable value is TypeError
    or DataFormatError, whatever it contains. *)
Definition plain (e : exn) : Prop := e = TypeError \/ e = DataFormatError.

Fixpoint jval_ind' (P : jval -> Prop) (H1 : P JNone) (H2 : forall z, P (JInt z)) (H3 : forall t, P (JText t))
  (H4 : forall l, (forall v, In v l -> P v) -> P (JList l))
  (H5 : forall c fs, (forall k v, In (k, v) fs -> P v) -> P (JObj c fs)) (v : jval) {struct v} : P v :=
  match v with
  | JNone => H1 | JInt z => H2 z | JText t => H3 t
  | JList l => H4 l ((fix go (l : list jval) : forall v, In v l -> P v :=
      match l return forall v, In v l -> P v with
      | [] => fun v i => match i with end
      | x :: r => fun v i => match i with
          | or_introl e => eq_ind x P (jval_ind' P H1 H2 H3 H4 H5 x) v e
          | or_intror j => go r v j end
      end) l)
  | JObj c fs => H5 c fs ((fix go (l : list (pystr * jval)) : forall k v, In (k, v) l -> P v :=
      match l return forall k v, In (k, v) l -> P v with
      | [] => fun k v i => match i with end
      | x :: r => fun k v i => match i with
          | or_introl e => eq_ind (snd x) P (jval_ind' P H1 H2 H3 H4 H5 (snd x)) v (f_equal snd e)
          | or_intror j => go r k v j end
      end) fs)
  end.

Lemma dispatch_in : forall {V} (fs : list (pystr * V)) k v, dispatch fs = Some (k, v) ->
  dget pystr_eqb fs (root_item k) = Some v.
Proof.
  intros V fs k v. unfold dispatch.
  destruct (dget pystr_eqb fs (root_item KBlueprint)) eqn:A; [intros H; injection H as <- <-; assumption|].
  destruct (dget pystr_eqb fs (root_item KDeconstruction)) eqn:B; [intros H; injection H as <- <-; assumption|].
  destruct (dget pystr_eqb fs (root_item KUpgrade)) eqn:C; [intros H; injection H as <- <-; assumption|].
  destruct (dget pystr_eqb fs (root_item KBook)) eqn:D; [intros H; injection H as <- <-; assumption|discriminate].
Qed.
Lemma dispatch_none : forall {V} (fs : list (pystr * V)), dispatch fs = None <->
  forall k, dget pystr_eqb fs (root_item k) = None.
Proof.
  intros V fs. unfold dispatch.
  destruct (dget pystr_eqb fs (root_item KBlueprint)) eqn:A; [split; [discriminate|intros H; rewrite (H KBlueprint) in A; discriminate]|].
  destruct (dget pystr_eqb fs (root_item KDeconstruction)) eqn:B; [split; [discriminate|intros H; rewrite (H KDeconstruction) in B; discriminate]|].
  destruct (dget pystr_eqb fs (root_item KUpgrade)) eqn:C; [split; [discriminate|intros H; rewrite (H KUpgrade) in C; discriminate]|].
  destruct (dget pystr_eqb fs (root_item KBook)) eqn:D; [split; [discriminate|intros H; rewrite (H KBook) in D; discriminate]|].
  split; [|reflexivity]. intros _ k. destruct k; assumption.
Qed.

Lemma dget_pair : forall (d : list (pystr * jval)) k v, dget pystr_eqb d k = Some v -> exists k', In (k', v) d.
Proof.
  induction d as [|[k' w] d IH]; intros k v; [discriminate|]. cbn [dget].
  destruct (pystr_eqb k' k); intros H; [injection H as <-; exists k'; left; reflexivity|].
  destruct (IH k v H) as [k2 I]. exists k2. right. assumption.
Qed.
Lemma views_pair : forall d k p, dget pystr_eqb (map (fun kv => (fst kv, (snd kv, interp (snd kv)))) d) k = Some p ->
  exists k' v, In (k', v) d /\ p = (v, interp v).
Proof.
  intros d k p H. change (map (fun kv => (fst kv, (snd kv, interp (snd kv)))) d) with (with_views d) in H.
  rewrite with_views_get in H. destruct (dget pystr_eqb d k) as [v|] eqn:E; [|discriminate].
  injection H as <-. destruct (dget_pair _ _ _ E) as [k' I]. exists k', v. auto.
Qed.

Lemma interp_plain : forall v, (forall e, as_element (interp v) = Err e -> plain e) /\
  (forall e, as_list (interp v) = Err e -> plain e) /\ (forall k e, as_body (interp v) k = Err e -> plain e).
Proof.
  assert (T : plain TypeError) by (left; reflexivity). assert (D : plain DataFormatError) by (right; reflexivity).
  induction v as [|z|t|l IH|c fs IH] using jval_ind'; try (cbn [interp as_element as_list as_body];
    repeat split; intros; match goal with H : Err _ = Err _ |- _ => injection H as <- end; assumption).
  - cbn [interp as_element as_list as_body].
    split; [intros e H; injection H as <-; assumption|]. split; [|intros k e H; injection H as <-; assumption].
    intros e. induction l as [|x l IHl]; [discriminate|]. cbn [map mapM_elements].
    destruct (as_element (interp x)) as [i|e'] eqn:E; cbn [bind].
    + destruct (mapM_elements (map interp l)) as [xs|e'] eqn:M; cbn [bind]; [discriminate|].
      intros H. injection H as ->. apply IHl; [intros; apply IH; right; assumption|reflexivity].
    + intros H. injection H as ->. apply (proj1 (IH x (or_introl eq_refl))). assumption.
  - cbn [interp as_element as_list as_body]. split; [|split].
    + intros e H.
      destruct (dispatch (map (fun kv => (fst kv, (snd kv, interp (snd kv)))) fs)) as [[k [w b]]|] eqn:E; [|injection H as <-; assumption].
      apply dispatch_in in E. destruct (views_pair _ _ _ E) as [k' [v [I P]]]. injection P as -> ->.
      apply construct_err in H. destruct H as [H| ->]; [|assumption]. exact (proj2 (proj2 (IH k' v I)) k e H).
    + intros e H. injection H as <-. assumption.
    + intros k e H. destruct (clashes fs); [injection H as <-; assumption|].
      destruct (has_key (root_item k) fs); [injection H as <-; assumption|]. destruct k; try discriminate.
      destruct (dget pystr_eqb (map (fun kv => (fst kv, (snd kv, interp (snd kv)))) fs) K_blueprints) as [[w b]|] eqn:E; [|discriminate].
      destruct (views_pair _ _ _ E) as [k' [v [I P]]]. injection P as -> ->.
      destruct (as_list (interp v)) as [ms|e'] eqn:L; cbn [bind] in H; [discriminate|]. injection H as ->.
      exact (proj1 (proj2 (IH k' v I)) e L).
Qed.

Lemma load_as_errors : forall k strict d e, load_as k strict d = Err e ->
  e = KeyError \/ e = TypeError \/ e = DataFormatError.
Proof.
  intros k strict d e. unfold load_as.
  destruct (dget pystr_eqb (map (fun kv => (fst kv, (snd kv, interp (snd kv)))) d) (root_item k)) as [[w b]|] eqn:E.
  - destruct (views_pair _ _ _ E) as [k' [v [I P]]]. injection P as -> ->. intros H. apply construct_err in H.
    destruct H as [H|H]; [|auto]. right. exact (proj2 (proj2 (interp_plain v)) k e H).
  - intros H. injection H as <-. auto.
Qed.
Lemma load_as_key : forall k strict d, load_as k strict d = Err KeyError <-> lacks d (root_item k).
Proof.
  intros k strict d. unfold load_as.
  change (map (fun kv => (fst kv, (snd kv, interp (snd kv)))) d) with (with_views d). rewrite with_views_get.
  destruct (dget pystr_eqb d (root_item k)) as [v|] eqn:E; cbn [option_map].
  - split.
    + intros H. apply construct_err in H. destruct H as [H|H]; [|discriminate].
      destruct (proj2 (proj2 (interp_plain v)) k KeyError H); discriminate.
    + intros L. apply lacks_none in L. congruence.
  - split; [|reflexivity]. intros _ I. apply in_map_iff in I. destruct I as [[k' w] [F I]]. simpl in F. subst k'.
    exact (proj1 (dget_none pystr_eqb pystr_eqb_eq d _) E (in_map fst _ _ I)).
Qed.
Lemma generic_unknown : forall d, 
  (get_blueprintable_from_JSON d = Err IncorrectBlueprintTypeError <-> d <> [] /\ forall k, lacks d (root_item k)) /\
  (get_blueprintable_from_JSON d = Err IndexError <-> d = []) /\
  ((forall k, lacks d (root_item k)) -> from_element d = Err DataFormatError).
Proof.
  intros d.
  assert (DN : dispatch (with_views d) = None <-> forall k, lacks d (root_item k)).
  { rewrite dispatch_none. split; intros H k; specialize (H k).
    - rewrite with_views_get in H. destruct (dget pystr_eqb d (root_item k)) as [v|] eqn:E; [discriminate|].
      intros I. apply in_map_iff in I. destruct I as [[k' w] [F I]]. simpl in F. subst k'. exact (proj1 (dget_none pystr_eqb pystr_eqb_eq d _) E (in_map fst _ _ I)).
    - rewrite with_views_get, (lacks_none _ _ H). reflexivity. }
  assert (ER : forall k v e, construct true k (interp v) (index_of_dict (with_views d)) = Err e -> plain e).
  { intros k v e H. apply construct_err in H. destruct H as [H|H]; [exact (proj2 (proj2 (interp_plain v)) k e H)|right; assumption]. }
  unfold get_blueprintable_from_JSON. change (map (fun kv => (fst kv, (snd kv, interp (snd kv)))) d) with (with_views d).
  assert (DS : forall k w b, dispatch (with_views d) = Some (k, (w, b)) -> exists v, b = interp v).
  { intros k w b E. apply dispatch_in in E. destruct (views_pair _ _ _ E) as [k' [v [I P]]]. injection P as -> ->. eauto. }
  split; [|split].
  - rewrite <- DN. destruct (dispatch (with_views d)) as [[k [w b]]|].
    + destruct (DS _ _ _ eq_refl) as [v ->]. split; [|intros [_ H]; discriminate].
      intros H. apply ER in H. destruct H; discriminate.
    + destruct d; split; try discriminate; try (intros [H _]; contradiction H; reflexivity).
      * intros _. split; [discriminate|reflexivity].
      * reflexivity.
  - destruct (dispatch (with_views d)) as [[k [w b]]|] eqn:E.
    + destruct (DS _ _ _ eq_refl) as [v ->]. split.
      * intros H. apply ER in H. destruct H; discriminate.
      * intros ->. discriminate.
    + destruct d; split; try discriminate; try reflexivity.
  - intros H. apply DN in H. unfold from_element. cbn [interp as_element].
    change (map (fun kv => (fst kv, (snd kv, interp (snd kv)))) d) with (with_views d). rewrite H. reflexivity.
Qed.
