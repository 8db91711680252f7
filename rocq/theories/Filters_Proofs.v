From Coq Require Import ZArith NArith List Bool String Lia.
From Verif Require Import Common Dict Assign_Model Slots_Model Filters_Model Filters_Spec.
Import ListNotations.
Local Open Scope list_scope.
Local Open Scope Z_scope.

Lemma is_int64_iff : forall z, is_int64 z = true <-> int64 z.
Proof.
  intro z. unfold is_int64, int64. rewrite andb_true_iff, Z.leb_le, Z.ltb_lt. reflexivity.
Qed.
Lemma one_of_iff : forall l s, one_of l s = true <-> In s l.
Proof.
  intros l s. unfold one_of. rewrite existsb_exists. split.
  - intros (x & I & Q). apply pystr_eqb_eq in Q. subst. exact I.
  - intro I. exists s. split; [exact I|]. apply pystr_eqb_eq. reflexivity.
Qed.
Lemma qualities_same : qualities = quality_names.
Proof. reflexivity. Qed.
Lemma comparators_same : comparators = comparator_names.
Proof. reflexivity. Qed.
Lemma validating_bool : forall m, validating m <-> mode_bool m = true.
Proof. intro m. unfold validating. destruct m; cbn; split; congruence. Qed.

Section Proofs.
  Variable numeral : pystr -> option Z.
  Variable known : pystr -> bool.
  Notation assign := (assign numeral known).
  Notation read_entry := (read_entry numeral).
  Notation read_all := (read_all numeral).
  Notation stands := (stands numeral).
  Notation stands_all := (stands_all numeral).

  Lemma read_index_some : forall v w, read_index numeral v = Some w <-> exists z, w = VInt z /\ index_of numeral v z.
  Proof.
    intros v w. unfold read_index, in_int64, index_of. split.
    - destruct v as [|z|s|n]; try discriminate.
      + destruct (is_int64 z) eqn:B; [|discriminate]. intro K. exists z. apply is_int64_iff in B.
        split; [congruence|]. split; [exact B|]. left; reflexivity.
      + destruct (numeral s) as [z|] eqn:N; [|discriminate].
        destruct (is_int64 z) eqn:B; [|discriminate]. intro K. exists z. apply is_int64_iff in B.
        split; [congruence|]. split; [exact B|]. right. exists s. split; [reflexivity|exact N].
    - intros (z & -> & B & [->|(s & -> & N)]); apply is_int64_iff in B.
      + rewrite B. reflexivity.
      + rewrite N, B. reflexivity.
  Qed.
  Lemma read_choice_some : forall l v w,
    read_choice l v = Some w <-> w = v /\ (v = VNone \/ exists s, v = VStr s /\ In s l).
  Proof.
    intros l v w. unfold read_choice. split.
    - destruct v as [|z|s|n]; try discriminate.
      + intro K. split; [congruence|]. left; reflexivity.
      + destruct (one_of l s) eqn:B; [|discriminate]. intro K. apply one_of_iff in B.
        split; [congruence|]. right. exists s. split; [reflexivity|exact B].
    - intros (-> & [->|(s & -> & B)]); [reflexivity|]. apply one_of_iff in B. rewrite B. reflexivity.
  Qed.
  Lemma field_validating : forall m r v, mode_bool m = true -> field m r v = r v.
  Proof. intros m r v M. unfold field. destruct (r v); [reflexivity|]. rewrite M. reflexivity. Qed.
  Lemma optional_choice : forall m l d o w, mode_bool m = true ->
    (optional m (read_choice l) d o = Some w <-> choice l d o w).
  Proof.
    intros m l d o w M. unfold optional, choice. destruct o as [v|].
    - rewrite (field_validating m _ v M), read_choice_some. reflexivity.
    - split; congruence.
  Qed.

  Lemma read_dict_iff : forall m e f i, mode_bool m = true -> (forall s, e <> EName s) ->
    (read_entry m e = Some f <-> stands i e f).
  Proof.
    intros m e f i M NN. destruct e as [s|oi on oq oc|n].
    - exfalso. exact (NN s eq_refl).
    - unfold Filters_Model.read_entry, Filters_Spec.stands. split.
      + destruct oi as [vi|]; [|discriminate]. destruct on as [vn|]; [|discriminate].
        rewrite !(field_validating m _ _ M).
        destruct (read_index numeral vi) as [i'|] eqn:I; [|discriminate].
        destruct vn as [|z0|s|n0]; try discriminate. cbn [read_name].
        destruct (optional m (read_choice qualities) (VStr (str "any")) oq) as [q'|] eqn:Q; [|discriminate].
        destruct (optional m (read_choice comparators) VNone oc) as [c'|] eqn:C; [|discriminate].
        intro K. assert (F : f = mkFil i' (VStr s) q' c') by congruence. subst f.
        apply read_index_some in I. destruct I as (z & -> & I).
        apply (optional_choice m _ _ _ _ M) in Q. apply (optional_choice m _ _ _ _ M) in C.
        exists vi, z, s. cbn [x_index x_name x_quality x_comparator].
        split; [reflexivity|]. split; [exact I|]. split; [reflexivity|]. split; [reflexivity|].
        split; [reflexivity|]. split; [exact Q|exact C].
      + intros (vi & z & s & -> & I & -> & XI & XN & Q & C).
        rewrite !(field_validating m _ _ M).
        rewrite (proj2 (read_index_some vi (VInt z)) (ex_intro _ z (Logic.conj eq_refl I))).
        cbn [read_name].
        rewrite (proj2 (optional_choice m qualities _ _ _ M) Q).
        rewrite (proj2 (optional_choice m comparators _ _ _ M) C).
        destruct f as [a b c d]. cbn [x_index x_name x_quality x_comparator] in *. subst. reflexivity.
    - cbn. split; [discriminate|contradiction].
  Qed.
  Lemma read_long_iff : forall m e f i, mode_bool m = true ->
    (read_entry m (long_form i e) = Some f <-> stands (i + 1) e f).
  Proof.
    intros m e f i M. destruct e as [s|oi on oq oc|n].
    - cbn [long_form]. unfold Filters_Model.read_entry. rewrite !(field_validating m _ _ M).
      cbn [read_index read_name optional]. unfold in_int64, Filters_Spec.stands.
      destruct (is_int64 (i + 1)) eqn:B.
      + apply is_int64_iff in B. split; [intro K; split; [exact B|congruence]|]. intros (_ & ->). reflexivity.
      + split; [discriminate|]. intros (J & _). apply is_int64_iff in J. congruence.
    - apply read_dict_iff; [exact M|intros ? K; discriminate K].
    - apply read_dict_iff; [exact M|intros ? K; discriminate K].
  Qed.
  Lemma read_all_iff : forall m, mode_bool m = true -> forall l i fs,
    read_all m (number i l) = Some fs <-> stands_all (i + 1) l fs.
  Proof.
    intros m M l. induction l as [|e l IH]; intros i fs.
    - cbn. destruct fs; split; try congruence; try contradiction. intros _; exact Logic.I.
    - cbn [number Filters_Model.read_all]. destruct fs as [|f fs].
      + cbn. split; [|contradiction].
        destruct (read_entry m (long_form i e)); [|discriminate]. destruct (read_all m (number (i + 1) l)); discriminate.
      + cbn [Filters_Spec.stands_all]. rewrite <- (read_long_iff m e f i M), <- (IH (i + 1) fs).
        destruct (read_entry m (long_form i e)) as [f'|] eqn:A; destruct (read_all m (number (i + 1) l)) as [fs'|] eqn:B;
          (split; [intro K|intros (K1 & K2)]); try discriminate; try congruence.
        assert (f' = f) by congruence. assert (fs' = fs) by congruence. subst. split; reflexivity.
  Qed.
  Lemma stands_all_same : forall l i fs fs', stands_all i l fs -> stands_all i l fs' -> fs = fs'.
  Proof.
    intros l i fs fs' A B.
    assert (E : i = i - 1 + 1) by lia. rewrite E in A, B.
    apply (read_all_iff MStrict eq_refl) in A. apply (read_all_iff MStrict eq_refl) in B. congruence.
  Qed.

  (** A filter that stands for something is proper. *)
  Lemma choice_proper : forall l s o w, In s l -> choice l (VStr s) o w ->
    w = VNone \/ exists q, w = VStr q /\ In q l.
  Proof.
    intros l s o w I C. unfold choice in C. destruct o as [v|].
    - destruct C as (-> & C). exact C.
    - subst. right. exists s. split; [reflexivity|exact I].
  Qed.
  Lemma choice_none : forall l o w, choice l VNone o w -> w = VNone \/ exists q, w = VStr q /\ In q l.
  Proof.
    intros l o w C. unfold choice in C. destruct o as [v|].
    - destruct C as (-> & C). exact C.
    - left; exact C.
  Qed.
  Lemma any_in : In (str "any") quality_names.
  Proof. do 6 right. left. reflexivity. Qed.
  Lemma stands_proper : forall i e f, stands i e f -> proper f.
  Proof.
    intros i e f S. destruct e as [s|oi on oq oc|n]; cbn in S.
    - destruct S as (B & ->). exists i, s. cbn [x_index x_name x_quality x_comparator].
      split; [reflexivity|]. split; [exact B|]. split; [reflexivity|].
      split; [right; exists (str "any"); split; [reflexivity|exact any_in]|left; reflexivity].
    - destruct S as (vi & z & s & -> & (B & _) & -> & XI & XN & Q & C).
      exists z, s. split; [exact XI|]. split; [exact B|]. split; [exact XN|].
      split; [exact (choice_proper _ _ _ _ any_in Q)|exact (choice_none _ _ _ C)].
    - contradiction.
  Qed.
  Lemma stands_all_proper : forall l i fs, stands_all i l fs -> Forall proper fs.
  Proof.
    induction l as [|e l IH]; intros i fs S; destruct fs as [|f fs]; cbn in S; try contradiction.
    - constructor.
    - destruct S as (S1 & S2). constructor; [exact (stands_proper i e f S1)|exact (IH (i + 1) fs S2)].
  Qed.

  (** Warnings. *)
  Lemma warnings_are : forall m fs, flat_map (name_warning known m) fs = warned known m (names_of fs).
  Proof.
    intros m fs. unfold warned, names_of.
    destruct m; cbn [mode_le]; induction fs as [|f fs IH]; try reflexivity;
      cbn [flat_map]; unfold name_warning at 1; cbn; rewrite IH; try reflexivity;
      destruct (x_name f); cbn; try reflexivity; destruct (known s); reflexivity.
  Qed.

  (** ** Setting a list *)
  Lemma set_meant : forall m h l fs, validating m -> stands_all 1 l fs ->
    assign m h (GSeq l) = (HFilters fs, Ok (warned known m (names_of fs))).
  Proof.
    intros m h l fs V S. apply validating_bool in V. unfold Filters_Model.assign. cbv zeta.
    rewrite (proj2 (read_all_iff m V l 0 fs) S), warnings_are. reflexivity.
  Qed.
  Lemma set_not_meant : forall m h l, validating m -> (forall fs, ~ stands_all 1 l fs) ->
    assign m h (GSeq l) = (h, Err DataFormatError).
  Proof.
    intros m h l V N. apply validating_bool in V. unfold Filters_Model.assign. cbv zeta.
    destruct (read_all m (number 0 l)) as [fs|] eqn:R.
    - exfalso. exact (N fs (proj1 (read_all_iff m V l 0 fs) R)).
    - rewrite V. reflexivity.
  Qed.
  Theorem accepted_iff : forall m h l ws fs, validating m ->
    (assign m h (GSeq l) = (HFilters fs, Ok ws) <-> stands_all 1 l fs /\ ws = warned known m (names_of fs)).
  Proof.
    intros m h l ws fs V. split.
    - intro K. pose proof (proj1 (validating_bool m) V) as B. unfold Filters_Model.assign in K. cbv zeta in K.
      destruct (read_all m (number 0 l)) as [fs'|] eqn:R.
      + assert (fs' = fs) by congruence. subst fs'. rewrite warnings_are in K.
        split; [exact (proj1 (read_all_iff m B l 0 fs) R)|congruence].
      + rewrite B in K. discriminate.
    - intros (S & ->). exact (set_meant m h l fs V S).
  Qed.
  Theorem refused_keeps : forall m h g e, snd (assign m h g) = Err e ->
    fst (assign m h g) = h /\ e = DataFormatError /\ validating m.
  Proof.
    intros m h g e K. unfold Filters_Model.assign in *. destruct g as [|l|n]; cbv zeta in *.
    - discriminate.
    - destruct (read_all m (number 0 l)); [discriminate|]. destruct (mode_bool m) eqn:B; [|discriminate].
      cbn in *. split; [reflexivity|]. split; [congruence|]. apply validating_bool. exact B.
    - destruct (mode_bool m) eqn:B; [|discriminate].
      cbn in *. split; [reflexivity|]. split; [congruence|]. apply validating_bool. exact B.
  Qed.

  (** ** Names *)
  Lemma slots_stand : forall names i, int64 i -> int64 (i + Z.of_nat (List.length names) - 1) ->
    stands_all i (map EName names) (slots i names).
  Proof.
    induction names as [|s l IH]; intros i A B; cbn [map slots Filters_Spec.stands_all]; [exact Logic.I|].
    cbn [List.length] in B. rewrite Nat2Z.inj_succ in B. split.
    - split; [exact A|reflexivity].
    - destruct l as [|s' l']; [exact Logic.I|].
      apply IH; unfold int64 in *; cbn [List.length] in *; rewrite ?Nat2Z.inj_succ in *; lia.
  Qed.
  Lemma names_slots : forall names i, names_of (slots i names) = names.
  Proof.
    induction names as [|s l IH]; intro i; [reflexivity|]. cbn [slots]. unfold names_of in *. cbn [flat_map].
    rewrite IH. reflexivity.
  Qed.
  Lemma slots_length : forall names i, List.length (slots i names) = List.length names.
  Proof. induction names; intro i; cbn; [reflexivity|]. rewrite IHnames. reflexivity. Qed.
  Lemma slots_nth : forall names i k s, nth_error names k = Some s ->
    nth_error (slots i names) k = Some (plain (i + Z.of_nat k) s).
  Proof.
    induction names as [|x l IH]; intros i k s K; destruct k as [|k]; cbn in K; try discriminate.
    - cbn. assert (x = s) by congruence. subst. rewrite Z.add_0_r. reflexivity.
    - cbn [slots nth_error]. rewrite (IH (i + 1) k s K). do 2 f_equal. lia.
  Qed.
  (** Reading without validation. *)
  Lemma field_more : forall m r v w, r v = Some w -> field m r v = Some w.
  Proof. intros m r v w K. unfold field. rewrite K. reflexivity. Qed.
  Lemma read_entry_more : forall m e f, read_entry MStrict e = Some f -> read_entry m e = Some f.
  Proof.
    intros m e f K. destruct e as [s|oi on oq oc|n]; try discriminate.
    destruct oi as [vi|]; [|discriminate]. destruct on as [vn|]; [|discriminate].
    unfold Filters_Model.read_entry in *. rewrite !(field_validating MStrict) in K by reflexivity.
    destruct (read_index numeral vi) eqn:I; [|discriminate].
    destruct (read_name vn) eqn:N; [|discriminate].
    rewrite (field_more m _ _ _ I), (field_more m _ _ _ N).
    destruct (optional MStrict (read_choice qualities) (VStr (str "any")) oq) as [q'|] eqn:Q; [|discriminate].
    destruct (optional MStrict (read_choice comparators) VNone oc) as [c'|] eqn:C; [|discriminate].
    assert (Q' : optional m (read_choice qualities) (VStr (str "any")) oq = Some q').
    { unfold optional in *. destruct oq; [|exact Q]. rewrite field_validating in Q by reflexivity. apply field_more. exact Q. }
    assert (C' : optional m (read_choice comparators) VNone oc = Some c').
    { unfold optional in *. destruct oc; [|exact C]. rewrite field_validating in C by reflexivity. apply field_more. exact C. }
    rewrite Q', C'. exact K.
  Qed.
  Lemma read_all_more : forall m l fs, read_all MStrict l = Some fs -> read_all m l = Some fs.
  Proof.
    intros m l. induction l as [|e l IH]; intros fs K; [exact K|]. cbn [Filters_Model.read_all] in *.
    destruct (read_entry MStrict e) as [f|] eqn:A; [|discriminate].
    destruct (read_all MStrict l) as [fs'|] eqn:B; [|discriminate].
    rewrite (read_entry_more m e f A), (IH fs' eq_refl). exact K.
  Qed.
  Theorem any_mode : forall m h l fs, stands_all 1 l fs ->
    assign m h (GSeq l) = (HFilters fs, Ok (warned known m (names_of fs))).
  Proof.
    intros m h l fs S. apply (read_all_iff MStrict eq_refl l 0 fs) in S.
    unfold Filters_Model.assign. cbv zeta. rewrite (read_all_more m _ _ S), warnings_are. reflexivity.
  Qed.
  Theorem set_names : forall m h names, Z.of_nat (List.length names) < 2^63 ->
    assign m h (GSeq (map EName names)) = (HFilters (slots 1 names), Ok (warned known m names)).
  Proof.
    intros m h names B. rewrite (any_mode m h _ (slots 1 names)).
    - rewrite names_slots. reflexivity.
    - apply slots_stand; unfold int64; lia.
  Qed.
  Theorem unvalidated_never_fails : forall h g, exists h', assign MNone h g = (h', Ok []).
  Proof.
    intros h g. unfold Filters_Model.assign. destruct g as [|l|n]; cbv zeta.
    - eexists; reflexivity.
    - destruct (read_all MNone (number 0 l)) as [fs|].
      + exists (HFilters fs). rewrite warnings_are. reflexivity.
      + eexists; reflexivity.
    - eexists; reflexivity.
  Qed.
  Lemma read_entry_none : forall i e, (exists f, read_entry MNone (long_form i e) = Some f) <-> has_both e.
  Proof.
    intros i e. destruct e as [s|oi on oq oc|n]; cbn [long_form has_both].
    - split; [intros _; exact Logic.I|]. intros _. unfold Filters_Model.read_entry, field. cbn.
      unfold in_int64. destruct (is_int64 (i + 1)); eexists; reflexivity.
    - destruct oi as [vi|]; destruct on as [vn|]; try (split; [intros (f & K); discriminate|contradiction]).
      split; [intros _; exact Logic.I|]. intros _. unfold Filters_Model.read_entry.
      assert (FS : forall r v, exists w, field MNone r v = Some w).
      { intros r v. unfold field. destruct (r v); eexists; reflexivity. }
      assert (OS : forall r d o, exists w, optional MNone r d o = Some w).
      { intros r d o. unfold optional. destruct o; [apply FS|eexists; reflexivity]. }
      destruct (FS (read_index numeral) vi) as (a & ->). destruct (FS read_name vn) as (b & ->).
      destruct (OS (read_choice qualities) (VStr (str "any")) oq) as (c & ->).
      destruct (OS (read_choice comparators) VNone oc) as (d & ->). eexists; reflexivity.
    - cbn. split; [intros (f & K); discriminate|contradiction].
  Qed.
  Lemma read_all_none : forall l i, (exists fs, read_all MNone (number i l) = Some fs) <-> Forall has_both l.
  Proof.
    induction l as [|e l IH]; intro i.
    - split; [intros _; constructor|]. intros _. exists []. reflexivity.
    - cbn [number Filters_Model.read_all]. split.
      + intros (fs & K). destruct (read_entry MNone (long_form i e)) as [f|] eqn:A; [|discriminate].
        destruct (read_all MNone (number (i + 1) l)) as [fs'|] eqn:B; [|discriminate].
        constructor.
        * apply (read_entry_none i e). exists f. exact A.
        * apply (IH (i + 1)). exists fs'. exact B.
      + intro K. inversion K as [|x y K1 K2]; subst.
        apply (read_entry_none i e) in K1. destruct K1 as (f & ->).
        apply (IH (i + 1)) in K2. destruct K2 as (fs & ->). eexists; reflexivity.
  Qed.
  (** Each field of an entry: what is meant if there is a meaning, else what is given. *)
  Theorem unvalidated_list : forall h l, Forall has_both l ->
    exists fs, fst (assign MNone h (GSeq l)) = HFilters fs /\ List.length fs = List.length l /\
      forall k oi on oq oc, nth_error l k = Some (EDict (Some oi) (Some on) oq oc) ->
        exists f, nth_error fs k = Some f /\ x_name f = on /\
          (forall z, index_of numeral oi z -> x_index f = VInt z) /\
          ((forall z, ~ index_of numeral oi z) -> x_index f = oi) /\
          x_quality f = match oq with Some q => q | None => VStr (str "any") end /\
          x_comparator f = match oc with Some c => c | None => VNone end.
  Proof.
    intros h l HB. destruct (proj2 (read_all_none l 0) HB) as (fs & R). exists fs.
    split. { unfold Filters_Model.assign. cbv zeta. rewrite R. reflexivity. }
    assert (G : forall l i fs, read_all MNone (number i l) = Some fs ->
      List.length fs = List.length l /\
      forall k e, nth_error l k = Some e -> exists f, nth_error fs k = Some f /\
         read_entry MNone (long_form (i + Z.of_nat k) e) = Some f).
    { clear. induction l as [|e l IH]; intros i fs R.
      - cbn in R. assert (fs = []) by congruence. subst. split; [reflexivity|]. intros [|k] e K; discriminate.
      - cbn [number Filters_Model.read_all] in R.
        destruct (read_entry MNone (long_form i e)) as [f|] eqn:A; [|discriminate].
        destruct (read_all MNone (number (i + 1) l)) as [fs'|] eqn:B; [|discriminate].
        assert (fs = f :: fs') by congruence. subst fs. destruct (IH (i + 1) fs' B) as (L & N).
        split; [cbn; rewrite L; reflexivity|]. intros [|k] x K; cbn in K.
        + exists f. assert (x = e) by congruence. subst x. rewrite Z.add_0_r. split; [reflexivity|exact A].
        + destruct (N k x K) as (f' & X & Y). exists f'. split; [exact X|].
          rewrite <- Y. do 2 f_equal. lia. }
    destruct (G l 0 fs R) as (L & N). split; [exact L|]. intros k oi on oq oc K.
    destruct (N k _ K) as (f & X & Y). exists f. split; [exact X|].
    cbn [long_form] in Y. unfold Filters_Model.read_entry in Y.
    assert (FC : forall r v, (forall w, r v = Some w -> w = v) -> field MNone r v = Some v).
    { intros r v H. unfold field. destruct (r v) as [w|]; [rewrite (H w eq_refl); reflexivity|reflexivity]. }
    assert (OC : forall cs d o, optional MNone (read_choice cs) d o = Some (match o with Some q => q | None => d end)).
    { intros cs d o. destruct o as [q|]; [|reflexivity]. cbn [optional]. apply FC.
      intros w W. apply read_choice_some in W. apply W. }
    rewrite (FC read_name on) in Y by (destruct on; cbn; congruence).
    rewrite !OC in Y.
    destruct (read_index numeral oi) as [w|] eqn:I.
    - rewrite (field_more MNone _ _ _ I) in Y.
      match type of Y with Some ?F = _ => assert (E : f = F) by congruence end. subst f.
      cbn [x_index x_name x_quality x_comparator]. apply read_index_some in I. destruct I as (z & -> & I).
      split; [reflexivity|]. split; [|split; [|split; reflexivity]].
      + intros z' I'. destruct I as (_ & [->|(s & -> & S)]), I' as (_ & [J|(s' & J & S')]); try congruence.
      + intro NO. exfalso. exact (NO z I).
    - assert (FI : field MNone (read_index numeral) oi = Some oi) by (unfold field; rewrite I; reflexivity).
      rewrite FI in Y.
      match type of Y with Some ?F = _ => assert (E : f = F) by congruence end. subst f.
      cbn [x_index x_name x_quality x_comparator].
      split; [reflexivity|]. split; [|split; [|split; reflexivity]].
      + intros z J. pose proof (proj2 (read_index_some oi (VInt z)) (ex_intro _ z (Logic.conj eq_refl J))). congruence.
      + intros _; reflexivity.
  Qed.
  Theorem unvalidated_raw : forall h l, ~ Forall has_both l ->
    assign MNone h (GSeq l) = (HRaw (number 0 l), Ok []).
  Proof.
    intros h l N. unfold Filters_Model.assign. cbv zeta.
    destruct (read_all MNone (number 0 l)) as [fs|] eqn:R; [|reflexivity].
    exfalso. apply N. apply (read_all_none l 0). exists fs. exact R.
  Qed.

  (** ** What is held stays proper, and can be given again *)
  Lemma proper_stands : forall i f, proper f -> stands i (entry_of f) f.
  Proof.
    intros i f (z & s & XI & B & XN & Q & C). cbn. exists (x_index f), z, s.
    split; [reflexivity|]. split; [split; [exact B|left; exact XI]|]. split; [rewrite XN; reflexivity|].
    split; [exact XI|]. split; [exact XN|]. split; (split; [reflexivity|assumption]).
  Qed.
  Lemma proper_stands_all : forall fs i, Forall proper fs -> stands_all i (map entry_of fs) fs.
  Proof.
    induction fs as [|f fs IH]; intros i P; cbn [map Filters_Spec.stands_all]; [exact Logic.I|].
    inversion P as [|x y P1 P2]; subst. split; [exact (proper_stands i f P1)|exact (IH (i + 1) P2)].
  Qed.
  Theorem again : forall m h h0, proper_held h -> fst (assign m h0 (given_of h)) = h /\
    exists ws, snd (assign m h0 (given_of h)) = Ok ws.
  Proof.
    intros m h h0 P. destruct h as [|fs|l|n]; cbn in P; try contradiction; cbn [given_of].
    - cbn. split; [reflexivity|]. eexists; reflexivity.
    - rewrite (any_mode m h0 _ fs (proper_stands_all fs 1 P)). cbn [fst snd]. split; [reflexivity|]. eexists; reflexivity.
  Qed.
  Lemma assign_proper : forall m h g, validating m -> proper_held h -> proper_held (fst (assign m h g)).
  Proof.
    intros m h g V P. pose proof (proj1 (validating_bool m) V) as B.
    unfold Filters_Model.assign. destruct g as [|l|n]; cbv zeta.
    - exact Logic.I.
    - destruct (read_all m (number 0 l)) as [fs|] eqn:R.
      + cbn. apply (read_all_iff m B) in R. exact (stands_all_proper l _ fs R).
      + rewrite B. exact P.
    - rewrite B. exact P.
  Qed.
  Theorem run_proper : forall l h, Forall (fun p => validating (fst p)) l -> proper_held h ->
    proper_held (run numeral known h l).
  Proof.
    induction l as [|(m, o) l IH]; intros h V P; [exact P|]. inversion V as [|x y V1 V2]; subst. cbn [fst] in V1.
    cbn [run]. apply IH; [exact V2|]. unfold step. destruct o as [g|args].
    - exact (assign_proper m h g V1 P).
    - unfold set_item_filters. destruct args as [|a args]; [exact (assign_proper m h _ V1 P)|].
      destruct a; destruct args; exact (assign_proper m h _ V1 P).
  Qed.

  (** ** Arguments *)
  Theorem items_are : forall m h es,
    set_item_filters numeral known m h (map AEntry es) = set_inventory_filters numeral known m h (GSeq es).
  Proof.
    intros m h es. unfold set_item_filters, set_inventory_filters.
    destruct es as [|e es]; [reflexivity|]. cbn [map].
    change (as_entry (AEntry e) :: map as_entry (map AEntry es)) with (map as_entry (map AEntry (e :: es))).
    rewrite map_map. cbn [as_entry]. rewrite map_id. reflexivity.
  Qed.
  Theorem documented_list : forall m h l args, validating m -> In (AList l) args ->
    set_item_filters numeral known m h args = (h, Err DataFormatError).
  Proof.
    intros m h l args V I.
    assert (NS : forall fs i args, In (AList l) args -> ~ stands_all i (map as_entry args) fs).
    { clear. intros fs i args. revert fs i. induction args as [|a args IH]; intros fs i I S; [contradiction|].
      destruct fs as [|f fs]; [contradiction|]. cbn [map Filters_Spec.stands_all] in S. destruct S as (S1 & S2).
      destruct I as [->|I]; [exact S1|exact (IH fs (i + 1) I S2)]. }
    unfold set_item_filters. destruct args as [|a args]; [contradiction|].
    destruct a as [|e|l']; destruct args as [|b args];
      try (apply set_not_meant; [exact V|intro fs; apply NS; exact I]).
    destruct I as [K|[]]. discriminate.
  Qed.
End Proofs.

(** ** One slot after the whole list *)
From Verif Require Import Planner_Model.
Lemma slots_as : forall names i, map as_slots (slots i names) = map Some (plain_slots i names).
Proof. induction names as [|s l IH]; intro i; [reflexivity|]. cbn [slots plain_slots map]. rewrite IH. reflexivity. Qed.
Lemma plain_length : forall names i, List.length (plain_slots i names) = List.length names.
Proof. induction names; intro i; cbn; [reflexivity|]. rewrite IHnames. reflexivity. Qed.
Lemma plain_nth : forall names i k s, nth_error names k = Some s ->
  nth_error (plain_slots i names) k = Some (mkI (i + Z.of_nat k) s (Some (str "any")) None).
Proof.
  induction names as [|x l IH]; intros i k s K; destruct k as [|k]; cbn in K; try discriminate.
  - cbn. assert (x = s) by congruence. subst. rewrite Z.add_0_r. reflexivity.
  - cbn [plain_slots nth_error]. rewrite (IH (i + 1) k s K). do 2 f_equal. lia.
Qed.
Lemma plain_first : forall names i k, (k < List.length names)%nat ->
  first_index (fun f => i_index f =? i + Z.of_nat k) (plain_slots i names) = Some k.
Proof.
  induction names as [|x l IH]; intros i k K; cbn in K; [lia|]. cbn [plain_slots first_index i_index].
  destruct k as [|k].
  - rewrite Z.add_0_r, Z.eqb_refl. reflexivity.
  - assert (N : (i =? i + Z.of_nat (S k)) = false) by (apply Z.eqb_neq; lia). rewrite N.
    assert (E : i + Z.of_nat (S k) = i + 1 + Z.of_nat k) by lia. rewrite E, (IH (i + 1) k) by lia. reflexivity.
Qed.
Lemma plain_first_none : forall names i j, j < i \/ i + Z.of_nat (List.length names) <= j ->
  first_index (fun f => i_index f =? j) (plain_slots i names) = None.
Proof.
  induction names as [|x l IH]; intros i j K; [reflexivity|]. cbn [plain_slots first_index i_index List.length] in *.
  assert (N : (i =? j) = false) by (apply Z.eqb_neq; lia). rewrite N, (IH (i + 1) j) by lia. reflexivity.
Qed.
Lemma plain_replace : forall names i k x, (k < List.length names)%nat ->
  replace_nth (plain_slots i names) k (mkI (i + Z.of_nat k) x (Some (str "any")) None) = plain_slots i (with_name k x names).
Proof.
  induction names as [|y l IH]; intros i k x K; cbn in K; [lia|]. destruct k as [|k].
  - cbn. rewrite Z.add_0_r. reflexivity.
  - unfold with_name. cbn [plain_slots replace_nth firstn skipn app]. f_equal.
    assert (E : i + Z.of_nat (S k) = i + 1 + Z.of_nat k) by lia. rewrite E. exact (IH (i + 1) k x ltac:(lia)).
Qed.
Lemma plain_app : forall names i x, plain_slots i names ++ [mkI (i + Z.of_nat (List.length names)) x (Some (str "any")) None]
  = plain_slots i (names ++ [x]).
Proof.
  induction names as [|y l IH]; intros i x; cbn [plain_slots app List.length].
  - rewrite Z.add_0_r. reflexivity.
  - f_equal. assert (E : i + Z.of_nat (S (List.length l)) = i + 1 + Z.of_nat (List.length l)) by lia. rewrite E. apply IH.
Qed.
Lemma plain_valid : forall names i, int64 i -> int64 (i + Z.of_nat (List.length names) - 1) ->
  forallb i_valid (plain_slots i names) = true.
Proof.
  induction names as [|s l IH]; intros i A B; [reflexivity|]. cbn [plain_slots forallb]. rewrite andb_true_iff. split.
  - unfold i_valid. cbn [i_index i_quality i_comparator opt_ok]. rewrite (proj2 (is_int64_iff i) A). reflexivity.
  - destruct l as [|t l']; [reflexivity|]. apply IH; unfold int64 in *; cbn [List.length] in *; lia.
Qed.
Lemma with_length : forall k x names, (k < List.length names)%nat -> List.length (with_name k x names) = List.length names.
Proof.
  intros k x names K. unfold with_name. rewrite app_length, firstn_length. cbn [List.length].
  rewrite skipn_length. lia.
Qed.
Theorem then_one : forall strict names k x q c, Z.of_nat (List.length names) < 2^63 -> (k < List.length names)%nat ->
  set_inventory_filter strict (Some (plain_slots 1 names)) (Z.of_nat k) (Some x) q c
  = (Some (plain_slots 1 (with_name k x names)), Ok tt).
Proof.
  intros strict names k x q c L K. unfold set_inventory_filter. cbv zeta.
  assert (V : i_valid (mkI (Z.of_nat k) x (Some (str "any")) None) = true).
  { unfold i_valid. cbn [i_index i_quality i_comparator opt_ok].
    rewrite (proj2 (is_int64_iff (Z.of_nat k))) by (unfold int64; lia). reflexivity. }
  rewrite V. assert (E : Z.of_nat k + 1 = 1 + Z.of_nat k) by lia. rewrite E, (plain_first names 1 k K).
  destruct (nth_error names k) as [s|] eqn:N; [|apply nth_error_None in N; lia].
  rewrite (plain_nth names 1 k s N). cbn [i_index i_quality i_comparator].
  rewrite (plain_replace names 1 k x K). unfold store.
  rewrite (plain_valid (with_name k x names) 1); [|unfold int64; lia|rewrite (with_length k x names K); unfold int64; lia].
  cbn [negb]. rewrite andb_false_r. reflexivity.
Qed.
Theorem then_next : forall strict names x q c, Z.of_nat (List.length names) + 1 < 2^63 ->
  set_inventory_filter strict (Some (plain_slots 1 names)) (Z.of_nat (List.length names)) (Some x) q c
  = (Some (plain_slots 1 (names ++ [x])), Ok tt).
Proof.
  intros strict names x q c L. unfold set_inventory_filter. cbv zeta.
  assert (V : i_valid (mkI (Z.of_nat (List.length names)) x (Some (str "any")) None) = true).
  { unfold i_valid. cbn [i_index i_quality i_comparator opt_ok].
    rewrite (proj2 (is_int64_iff (Z.of_nat (List.length names)))) by (unfold int64; lia). reflexivity. }
  rewrite V, (plain_first_none names 1 (Z.of_nat (List.length names) + 1)) by lia.
  assert (E : Z.of_nat (List.length names) + 1 = 1 + Z.of_nat (List.length names)) by lia. rewrite E, plain_app. unfold store.
  rewrite (plain_valid (names ++ [x]) 1); [|unfold int64; lia|rewrite app_length; cbn [List.length]; unfold int64; lia].
  cbn [negb]. rewrite andb_false_r. reflexivity.
Qed.

(** ** The number of slots *)
Theorem count_known : forall raw name, filter_count raw name = None <-> ~ In name (map fst raw).
Proof.
  intros raw name. unfold filter_count. split.
  - destruct (dget pystr_eqb raw name) as [[z|]|] eqn:G; try discriminate. intros _.
    exact (proj1 (dget_none pystr_eqb pystr_eqb_eq raw name) G).
  - intro N. rewrite (proj2 (dget_none pystr_eqb pystr_eqb_eq raw name) N). reflexivity.
Qed.
Theorem count_is : forall raw name o, NoDup (map fst raw) -> In (name, o) raw ->
  filter_count raw name = Some (match o with Some n => n | None => 0 end).
Proof.
  intros raw name o D I. unfold filter_count.
  rewrite (proj2 (dget_in pystr_eqb pystr_eqb_eq raw name o D) I). destruct o; reflexivity.
Qed.
