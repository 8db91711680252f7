(** Proofs about validated assignment. *)
From Coq Require Import ZArith NArith QArith String List Bool Lia.
From Verif Require Import Common Slots_Model Assign_Model Assign_Spec.
Import ListNotations.
Local Open Scope string_scope.
Local Open Scope list_scope.
Local Open Scope Z_scope.

Lemma put_same o a v : put o a v a = v.
Proof. unfold put. destruct (attr_eq_dec a a); congruence. Qed.
Lemma put_other o a v b : b <> a -> put o a v b = o b.
Proof. unfold put. destruct (attr_eq_dec a b); congruence. Qed.
Lemma put_put o a v w b : put (put o a v) a w b = put o a w b.
Proof. unfold put. destruct (attr_eq_dec a b); reflexivity. Qed.

(** Boolean forms of the comparisons. *)
Definition insideb (lo hi : Q) (v : pyval) : bool :=
  match v with
  | VFloat (Fin q) => Qle_bool lo q && Qle_bool q hi
  | VInt z => Qle_bool lo (inject_Z z) && Qle_bool (inject_Z z) hi
  | _ => false
  end.
Lemma insideb_iff lo hi v : insideb lo hi v = true <-> within lo hi v.
Proof.
  destruct v as [|?|z|[q| |]|?|?|?]; cbn [insideb within]; try (split; intros; discriminate || contradiction);
    rewrite andb_true_iff, !Qle_bool_iff; reflexivity.
Qed.
Lemma insideb_not lo hi v : insideb lo hi v = false <-> ~ within lo hi v.
Proof. rewrite <- insideb_iff. destruct (insideb lo hi v); split; intros; congruence. Qed.

Definition is_none (v : pyval) : bool := match v with VNone => true | _ => false end.
Lemma is_none_iff v : is_none v = true <-> v = VNone.
Proof. destruct v; cbn; split; intros; congruence. Qed.
Lemma is_none_not v : is_none v = false <-> v <> VNone.
Proof. destruct v; cbn; split; intros; congruence. Qed.

Definition extra (e : env) (a : attr) : list warn :=
  if unknown_entity e then [] else if extra_keys e a then [WUnknownKeyword] else [].

Fixpoint misfit (l : list pystr) (items : list pystr) : option pystr :=
  match items with
  | [] => None
  | i :: r => if one_of l i then misfit l r else Some i
  end.

(** The warnings in the order in which they are collected. *)
Definition remarks (e : env) (a : attr) (m : mode) (o : obj) (v w : pyval) : list warn :=
  if mode_le m MMinimum then [] else
  match a with
  | Volume => (if negb (is_none w) && negb (insideb 0 1 w) && mode_eq m MStrict then [WVolume w] else []) ++ extra e a
  | GlobalPlayback => extra e a
  | InstrumentId =>
      match instruments e, w with
      | Some known, VInt i => if existsb (Z.eqb i) known then [] else [WInstrument w]
      | _, _ => []
      end ++ extra e a
  | NoteId =>
      match instruments e, o InstrumentId, w with
      | Some known, VInt i, VInt n =>
          if existsb (Z.eqb i) known then if existsb (Z.eqb n) (notes e i) then [] else [WNote w] else []
      | _, _, _ => []
      end ++ extra e a
  | HeatTemperature => if negb (is_none w) && negb (insideb 0 1000 w) && mode_eq m MPedantic then [WTemperature w] else []
  | Bar =>
      (if is_none w then [] else match bar_enabled e with Some false => [WBarDisabled] | _ => [] end) ++
      match inventory_size e, w with
      | Some size, VInt z => if mode_eq m MPedantic && negb (size =? 0) && (size <=? z) then [WBarBeyond w size] else []
      | _, _ => []
      end
  | Recipe =>
      match w with
      | VStr r =>
          (if recipe_known e r then [] else [WUnknownRecipe w]) ++
          (match machine_recipes e with
           | Some l => if recipe_known e r && negb (one_of l r) then [WRecipeLimitation w] else []
           | None => []
           end) ++
          (match allowed_items e v with
           | Some l => match misfit l (item_names (o Items)) with Some i => [WItemLimitation i v] | None => [] end
           | None => []
           end)
      | _ => []
      end
  | Facing => match w with VInt d => if d mod 4 =? 0 then [] else [WDirection (VInt (d - d mod 4))] | _ => [] end
  | Items =>
      if is_none w then [] else
      if is_none (o Recipe) then [] else
      map (fun i => WModuleLimitation i (o Recipe)) (filter (module_limited e (o Recipe)) (item_names v))
  | FluidName =>
      match w with VStr s => if fluid_known e s then [] else [WUnknownFluid w] | _ => [] end ++ extra e a
  | FluidPercentage | FluidMode | FluidTemperature => extra e a
  | _ => []
  end.

Definition consistentb (e : env) (o : obj) : bool :=
  if is_none (o FluidTemperature) then true else
  match o FluidName with
  | VStr s => if fluid_known e s
              then insideb (fst (fluid_range e s)) (snd (fluid_range e s)) (o FluidTemperature) else true
  | _ => false
  end.
Lemma consistentb_iff e o : consistentb e o = true <-> consistent_fluid e o.
Proof.
  unfold consistentb, consistent_fluid.
  destruct (is_none (o FluidTemperature)) eqn:N.
  - apply is_none_iff in N. split; auto.
  - apply is_none_not in N. split.
    + intros H. right. destruct (o FluidName) as [| | | |s| |] eqn:F; try discriminate.
      exists s. split; [reflexivity|]. intros K. rewrite K in H. apply insideb_iff, H.
    + intros [H|[s [F H]]]; [contradiction|]. rewrite F.
      destruct (fluid_known e s); [|reflexivity]. apply insideb_iff, H. reflexivity.
Qed.

Definition fluidb (a : attr) : bool :=
  match a with FluidName | FluidPercentage | FluidMode | FluidTemperature => true | _ => false end.
Lemma fluidb_iff a : fluidb a = true <-> fluid_attr a.
Proof.
  unfold fluid_attr. split.
  - destruct a; cbn; intros H; try discriminate; tauto.
  - intros [->|[->|[->| ->]]]; reflexivity.
Qed.

Definition inspectingb (m : mode) : bool := negb (mode_le m MMinimum).
Lemma inspectingb_iff m : inspectingb m = true <-> inspecting m.
Proof. unfold inspecting. destruct m; cbn; split; intros H; try discriminate; auto; destruct H; discriminate. Qed.

Definition refusedb (e : env) (a : attr) (m : mode) (o : obj) (w : pyval) : bool :=
  match a with
  | Volume => mode_eq m MPedantic && negb (is_none w) && negb (insideb 0 1 w)
  | _ => fluidb a && inspectingb m && negb (consistentb e (put o a w))
  end.
Lemma refusedb_iff e a m o w : refusedb e a m o w = true <-> refused e a m o w.
Proof.
  unfold refusedb, refused. split.
  - intros H. destruct a; cbn [fluidb andb] in H; try discriminate.
    + left. apply andb_true_iff in H. destruct H as [H1 H3]. apply andb_true_iff in H1. destruct H1 as [H1 H2].
      apply negb_true_iff in H2, H3. apply is_none_not in H2. apply insideb_not in H3.
      destruct m; try discriminate. auto.
    + right. apply andb_true_iff in H. destruct H as [H1 H2]. apply negb_true_iff in H2.
      rewrite <- fluidb_iff, <- inspectingb_iff, <- consistentb_iff. repeat split; auto. congruence.
    + right. apply andb_true_iff in H. destruct H as [H1 H2]. apply negb_true_iff in H2.
      rewrite <- fluidb_iff, <- inspectingb_iff, <- consistentb_iff. repeat split; auto. congruence.
    + right. apply andb_true_iff in H. destruct H as [H1 H2]. apply negb_true_iff in H2.
      rewrite <- fluidb_iff, <- inspectingb_iff, <- consistentb_iff. repeat split; auto. congruence.
    + right. apply andb_true_iff in H. destruct H as [H1 H2]. apply negb_true_iff in H2.
      rewrite <- fluidb_iff, <- inspectingb_iff, <- consistentb_iff. repeat split; auto. congruence.
  - intros [[-> [-> [H1 H2]]]|[F [I H]]].
    + apply is_none_not in H1. apply insideb_not in H2. rewrite H1, H2. reflexivity.
    + apply fluidb_iff in F. apply inspectingb_iff in I. rewrite <- consistentb_iff in H.
      apply not_true_is_false in H. destruct a; try discriminate F; rewrite I, H; reflexivity.
Qed.

Definition tripsb (e : env) (a : attr) (m : mode) (o : obj) (v w : pyval) : bool :=
  inspectingb m &&
  match a with
  | Facing => is_none w
  | Recipe => negb (is_none w) && (match item_names (o Items) with [] => false | _ => true end)
              && (match allowed_items e v with None => true | Some _ => false end)
  | _ => false
  end.
Lemma tripsb_iff e a m o v w : tripsb e a m o v w = true <-> trips e a m o v w.
Proof.
  unfold tripsb, trips. rewrite andb_true_iff, inspectingb_iff. split.
  - intros [I H]. destruct a; try discriminate.
    + right. apply andb_true_iff in H. destruct H as [H1 H3]. apply andb_true_iff in H1. destruct H1 as [H1 H2].
      apply negb_true_iff in H1. apply is_none_not in H1.
      repeat split; auto.
      * intros E. rewrite E in H2. discriminate.
      * destruct (allowed_items e v); [discriminate|reflexivity].
    + left. apply is_none_iff in H. auto.
  - intros [[-> [I ->]]|[-> [I [N [K A]]]]]; split; auto.
    apply is_none_not in N. rewrite N, A. destruct (item_names (o Items)); [contradiction|reflexivity].
Qed.

Lemma issue_spec fatal ws :
  (exists p x s, ws = p ++ x :: s /\ Forall (fun w => fatal w = false) p /\ fatal x = true /\ issue fatal ws = (p, Some x)) \/
  (Forall (fun w => fatal w = false) ws /\ issue fatal ws = (ws, None)).
Proof.
  induction ws as [|w r IH].
  - right. split; [constructor|reflexivity].
  - cbn [issue]. destruct (fatal w) eqn:F.
    + left. exists [], w, r. auto.
    + destruct IH as [[p [x [s [-> [P [X ->]]]]]]|[A ->]].
      * left. exists (w :: p), x, s. repeat split; auto.
      * right. split; [constructor; auto|reflexivity].
Qed.

(** ** What validation computes *)
Definition dev (ws : list warn) (r : comp pyval) : Prop := fst r = ws.

(** The object that the validators see: some setters store the raw value first. *)
Definition seen (a : attr) (o : obj) (v : pyval) : obj :=
  match a with Recipe | RecipeQuality | Items => put o a v | _ => o end.

Lemma between_ok lo hi w : (exists f, w = VFloat f) \/ (exists z, w = VInt z) ->
  between lo hi w = ret (insideb lo hi w).
Proof. intros [[f ->]|[z ->]]; [destruct f|]; reflexivity. Qed.

Lemma input_before a v : before a v = input a v.
Proof.
  destruct a; cbn [before input]; destruct v; try reflexivity.
  - cbn [lowest_bits]. f_equal. destruct b; reflexivity.
  - cbn [lowest_bits]. f_equal. change 4294967295 with (Z.ones 32). apply Z.land_ones. lia.
Qed.

Lemma four_mult d : 0 <= d < 16 ->
  ((d =? 0) || (d =? 4) || (d =? 8) || (d =? 12)) = (d mod 4 =? 0) /\ d / 4 * 4 = d - d mod 4.
Proof.
  intros H. split.
  - assert (d = 0 \/ d = 1 \/ d = 2 \/ d = 3 \/ d = 4 \/ d = 5 \/ d = 6 \/ d = 7 \/ d = 8 \/ d = 9 \/ d = 10 \/
            d = 11 \/ d = 12 \/ d = 13 \/ d = 14 \/ d = 15) as D by lia.
    repeat (destruct D as [->|D]; [reflexivity|]). subst. reflexivity.
  - rewrite (Z.div_mod d 4) at 2 by lia. lia.
Qed.

Lemma misfit_spec l items :
  first_misfit (Some l) items = ret (misfit l items).
Proof.
  induction items as [|i r IH]; cbn [first_misfit misfit]; [reflexivity|].
  destruct (one_of l i); [exact IH|reflexivity].
Qed.

Lemma unused_ok e a m o : unused_arguments a e m o = ((if inspectingb m then extra e a else []), inl tt).
Proof.
  unfold unused_arguments, inspectingb, extra, tell, ret. destruct (mode_le m MMinimum); [reflexivity|]. cbn [negb].
  destruct (unknown_entity e); [reflexivity|]. destruct (extra_keys e a); reflexivity.
Qed.

Lemma temperature_ok e m o : typed_fluid o ->
  temperature_allowed e m o =
  ([], if inspectingb m && negb (consistentb e o) then inr Invalid else inl tt).
Proof.
  intros [T N]. unfold temperature_allowed, inspectingb, consistentb, halt, ret.
  destruct (mode_le m MMinimum); [reflexivity|]. cbn [negb andb].
  destruct T as [->|[z [-> _]]]; [reflexivity|]. cbn [is_none].
  destruct N as [->|[s ->]]; [reflexivity|].
  destruct (fluid_known e s); [|reflexivity].
  rewrite between_ok by (right; eauto). cbn.
  destruct (Qle_bool _ _ && Qle_bool _ _); reflexivity.
Qed.

Lemma typed_put o a w : fluid_attr a -> typed_fluid o -> has_type (type_of a) w -> typed_fluid (put o a w).
Proof.
  intros F [T N] H. destruct F as [->|[->|[->| ->]]]; split;
    ((rewrite put_same; exact H) || (rewrite put_other by discriminate; assumption)).
Qed.

Lemma fluid_checks e a m o w ws : fluid_attr a -> typed_fluid o -> has_type (type_of a) w ->
  (checks a = [unused_arguments a; temperature_allowed]) /\
  match run_checks (checks a) e m (put o a w) with
  | (ws', inr s) => (ws ++ ws', inr s)
  | (ws', inl _) => (ws ++ ws', inl w)
  end = (ws ++ (if inspectingb m then extra e a else []),
         if inspectingb m && negb (consistentb e (put o a w)) then inr Invalid else inl w).
Proof.
  intros F T H. assert (C : checks a = [unused_arguments a; temperature_allowed])
    by (destruct F as [->|[->|[->| ->]]]; reflexivity).
  split; [exact C|]. rewrite C. cbn [run_checks]. rewrite unused_ok.
  pose proof (typed_put _ _ _ F T H) as T'. cbn [andthen]. rewrite (temperature_ok _ _ _ T').
  destruct (inspectingb m && negb (consistentb e (put o a w))); cbn; rewrite ?app_nil_r; reflexivity.
Qed.

Definition va_result (e : env) (a : attr) (m : mode) (o : obj) (v : pyval) (r : obj * comp pyval) : Prop :=
  let o1 := seen a o v in
  match coerce e (strict_types a) (type_of a) (input a v) with
  | None => r = (o1, ([], inr Invalid))
  | Some w =>
      if refusedb e a m o w then exists ws, r = ((if fluidb a then put o1 a w else o1), (ws, inr Invalid))
      else if tripsb e a m o v w then exists ws, r = (o1, (ws, inr (Raised TypeError)))
      else r = (put o1 a (settled a m w), (remarks e a m o v w, inl (settled a m w)))
  end.


Lemma volume_ok e m o w : m <> MNone -> has_type TFloat w ->
  volume_in_range e m o w =
  (if negb (is_none w) && negb (insideb 0 1 w) && mode_eq m MStrict then [WVolume w] else [],
   if mode_eq m MPedantic && negb (is_none w) && negb (insideb 0 1 w) then inr Invalid else inl w).
Proof.
  intros NM H. unfold volume_in_range. destruct H as [->|[f ->]].
  - destruct m; reflexivity.
  - cbn [is_none negb andb]. rewrite between_ok by eauto.
    destruct (insideb 0 1 (VFloat f)); destruct m; try contradiction; reflexivity.
Qed.

Lemma instrument_ok e m o w : has_type TUint32 w ->
  instrument_known e m o w =
  ((if mode_le m MMinimum then [] else
    match instruments e, w with
    | Some known, VInt i => if existsb (Z.eqb i) known then [] else [WInstrument w]
    | _, _ => []
    end), inl w).
Proof.
  intros H. unfold instrument_known, gated. destruct (mode_le m MMinimum); [reflexivity|].
  destruct (instruments e); [|destruct w; reflexivity].
  destruct H as [->|[z [-> _]]]; [reflexivity|]. destruct (existsb _ _); reflexivity.
Qed.

Lemma note_ok e m o w : has_type TUint32 w ->
  note_known e m o w =
  ((if mode_le m MMinimum then [] else
    match instruments e, o InstrumentId, w with
    | Some known, VInt i, VInt n =>
        if existsb (Z.eqb i) known then if existsb (Z.eqb n) (notes e i) then [] else [WNote w] else []
    | _, _, _ => []
    end), inl w).
Proof.
  intros H. unfold note_known, gated. destruct (mode_le m MMinimum); [reflexivity|].
  destruct (instruments e); [|destruct w; reflexivity].
  destruct (o InstrumentId); try (destruct w; reflexivity).
  destruct (existsb (Z.eqb z) l); [|destruct w; reflexivity].
  destruct H as [->|[y [-> _]]]; [reflexivity|]. destruct (existsb _ _); reflexivity.
Qed.

Lemma clamp_ok e m o w : has_type TFloat w ->
  clamp_temperature e m o w =
  (if negb (is_none w) && negb (insideb 0 1000 w) && mode_eq m MPedantic then [WTemperature w] else [], inl w).
Proof.
  intros H. unfold clamp_temperature, gated. destruct H as [->|[f ->]]; [reflexivity|].
  cbn [is_none negb andb]. rewrite between_ok by eauto.
  destruct (insideb 0 1000 (VFloat f)); destruct m; reflexivity.
Qed.

Lemma bar_ok e m o w : has_type TUint16 w ->
  run_all [bar_allowed; bar_within_size] e m o w =
  ((if mode_le m MMinimum then [] else
    (if is_none w then [] else match bar_enabled e with Some false => [WBarDisabled] | _ => [] end) ++
    match inventory_size e, w with
    | Some size, VInt z => if mode_eq m MPedantic && negb (size =? 0) && (size <=? z) then [WBarBeyond w size] else []
    | _, _ => []
    end), inl w).
Proof.
  intros H. cbn [run_all]. unfold bar_allowed, bar_within_size, gated. destruct H as [->|[z [-> _]]].
  - destruct (mode_le m MMinimum); [reflexivity|]. destruct (inventory_size e); reflexivity.
  - cbn [is_none]. rewrite Z.geb_leb || idtac.
    destruct m; cbn -[Z.leb]; destruct (bar_enabled e) as [[|]|]; try reflexivity;
      destruct (inventory_size e) as [n|]; try reflexivity; cbn -[Z.leb Z.geb]; try rewrite Z.geb_leb;
      destruct (n =? 0); try reflexivity; cbn -[Z.leb]; destruct (n <=? z); reflexivity.
Qed.

Lemma recipe_ok e m o w : has_type TStr w ->
  andthen (recipe_is_known e m o w) (fun x => recipe_is_allowed e m o x) =
  ((if mode_le m MMinimum then [] else
    match w with
    | VStr r =>
        (if recipe_known e r then [] else [WUnknownRecipe w]) ++
        (match machine_recipes e with
         | Some l => if recipe_known e r && negb (one_of l r) then [WRecipeLimitation w] else []
         | None => []
         end)
    | _ => []
    end), inl w).
Proof.
  intros H. unfold recipe_is_known, recipe_is_allowed, gated. destruct H as [->|[s ->]].
  - destruct (mode_le m MMinimum); reflexivity.
  - destruct (mode_le m MMinimum); [reflexivity|]. cbn [in_recipes].
    destruct (recipe_known e s) eqn:K; destruct (machine_recipes e) as [l|]; cbn; rewrite ?K; cbn; try reflexivity.
    destruct (one_of l s); cbn; reflexivity.
Qed.

Lemma fit_ok e m o w : has_type TStr w ->
  items_fit_recipe e m o w =
  (if mode_le m MMinimum || is_none w then ([], inl w) else
   match item_names (o Items), allowed_items e (o Recipe) with
   | [], _ => ([], inl w)
   | _ :: _, None => ([], inr (Raised TypeError))
   | l, Some a => (match misfit a l with Some i => [WItemLimitation i (o Recipe)] | None => [] end, inl w)
   end).
Proof.
  intros H. unfold items_fit_recipe, gated. destruct H as [->|[s ->]].
  - rewrite orb_true_r. reflexivity.
  - rewrite orb_false_r. destruct (mode_le m MMinimum); [reflexivity|].
    destruct (allowed_items e (o Recipe)) as [a|].
    + rewrite misfit_spec. destruct (item_names (o Items)) as [|i l]; [reflexivity|].
      destruct (misfit a (i :: l)); reflexivity.
    + destruct (item_names (o Items)); reflexivity.
Qed.

Lemma four_ok e m o w : has_type TDirection w ->
  four_way e m o w =
  (if mode_le m MMinimum then ([], inl w) else
   match w with
   | VInt d => (if d mod 4 =? 0 then [] else [WDirection (VInt (d - d mod 4))], inl (VInt (d - d mod 4)))
   | _ => ([], inr (Raised TypeError))
   end).
Proof.
  intros H. unfold four_way, gated. destruct (mode_le m MMinimum); [reflexivity|].
  destruct H as [->|[d [-> D]]]; [reflexivity|].
  destruct (four_mult d D) as [-> ->].
  destruct (d mod 4 =? 0) eqn:M; [|reflexivity].
  apply Z.eqb_eq in M. rewrite M, Z.sub_0_r. reflexivity.
Qed.

Lemma modules_ok e m o w :
  modules_permitted e m o w =
  ((if mode_le m MMinimum then [] else
    if is_none w then [] else
    if is_none (o Recipe) then [] else
    map (fun i => WModuleLimitation i (o Recipe)) (filter (module_limited e (o Recipe)) (item_names (o Items)))), inl w).
Proof.
  unfold modules_permitted, gated.
  destruct w; cbn [is_none]; destruct (mode_le m MMinimum); try reflexivity;
    destruct (o Recipe); cbn -[module_limited]; rewrite ?app_nil_r; reflexivity.
Qed.

Lemma fluid_ok e m o w : has_type TStr w ->
  fluid_is_known e m o w =
  ((if mode_le m MMinimum then [] else
    match w with VStr s => if fluid_known e s then [] else [WUnknownFluid w] | _ => [] end), inl w).
Proof.
  intros H. unfold fluid_is_known, gated. destruct H as [->|[s ->]].
  - destruct (mode_le m MMinimum); reflexivity.
  - destruct (mode_le m MMinimum); [reflexivity|]. destruct (fluid_known e s); reflexivity.
Qed.

Lemma ret_l {A B} (a : A) (k : A -> comp B) : andthen (ret a) k = k a.
Proof. cbn. destruct (k a); reflexivity. Qed.
Lemma ret_r {A} (c : comp A) : andthen c (fun x => ret x) = c.
Proof. destruct c as [ws [a|s]]; cbn; rewrite ?app_nil_r; reflexivity. Qed.
Lemma andthen_assoc {A B C} (c : comp A) (f : A -> comp B) (g : B -> comp C) :
  andthen (andthen c f) g = andthen c (fun x => andthen (f x) g).
Proof.
  destruct c as [ws [a|s]]; cbn; [|reflexivity]. destruct (f a) as [ws' [b|s]]; [|reflexivity].
  cbn. destruct (g b). rewrite app_assoc. reflexivity.
Qed.

Lemma va_spec e a m o v : m <> MNone -> well_behaved e -> (fluid_attr a -> typed_fluid o) ->
  va_result e a m o v (validate_assignment e (strict_types a) false a m (seen a o v) v).
Proof.
  intros NM W TF. unfold va_result, validate_assignment, validate_field, convert.
  rewrite input_before. destruct (coerce e (strict_types a) (type_of a) (input a v)) as [w|] eqn:C.
  2:{ reflexivity. }
  pose proof (converts e W _ _ _ _ C) as H.
  destruct (fluidb a) eqn:FL.
  - (* the infinity pipe *)
    apply fluidb_iff in FL. specialize (TF FL).
    assert (S : seen a o v = o) by (destruct FL as [->|[->|[->| ->]]]; reflexivity). rewrite S.
    assert (O : outer a = []) by (destruct FL as [->|[->|[->| ->]]]; reflexivity). rewrite O.
    assert (ST : settled a m w = w) by (destruct FL as [->|[->|[->| ->]]]; reflexivity). rewrite ST.
    assert (R : refusedb e a m o w = inspectingb m && negb (consistentb e (put o a w)))
      by (destruct FL as [->|[->|[->| ->]]]; reflexivity). rewrite R.
    assert (T : tripsb e a m o v w = false) by (destruct FL as [->|[->|[->| ->]]]; apply andb_false_r). rewrite T.
    set (ws := if mode_le m MMinimum then [] else
                 match a, w with FluidName, VStr s => if fluid_known e s then [] else [WUnknownFluid w] | _, _ => [] end).
    assert (I : run_all (inner a) e m o w = (ws, inl w)).
    { subst ws. destruct FL as [->|[->|[->| ->]]]; cbn [inner run_all].
      - rewrite (fluid_ok e m o w H). unfold ret, andthen. rewrite app_nil_r. reflexivity.
      - destruct (mode_le m MMinimum); reflexivity.
      - destruct (mode_le m MMinimum); reflexivity.
      - destruct (mode_le m MMinimum); reflexivity. }
    rewrite I. cbn [andthen run_all ret]. rewrite app_nil_r.
    destruct (fluid_checks e a m o w ws FL TF H) as [_ ->].
    assert (RM : remarks e a m o v w = ws ++ (if inspectingb m then extra e a else [])).
    { subst ws. unfold remarks, inspectingb. destruct (mode_le m MMinimum); [reflexivity|]. cbn [negb].
      destruct FL as [->|[->|[->| ->]]]; reflexivity. }
    rewrite RM.
    destruct (inspectingb m && negb (consistentb e (put o a w))); [eexists; reflexivity|reflexivity].
  - destruct a; try discriminate FL; clear FL TF;
      cbn [type_of inner outer run_all andthen seen settled strict_types checks] in *;
      unfold refusedb, tripsb, remarks; cbn [fluidb andb run_checks]; rewrite ?andb_false_r; cbn [app];
      rewrite ret_l, ?ret_r.
    + (* Volume *)
      rewrite (volume_ok _ _ _ _ NM H).
      destruct (mode_eq m MPedantic && negb (is_none w) && negb (insideb 0 1 w)) eqn:R.
      * eexists. reflexivity.
      * cbn [andthen ret]. rewrite unused_ok. cbn [andthen ret]. rewrite ?app_nil_r.
        unfold inspectingb. destruct m; try contradiction; cbn [mode_le mode_gt mode_index negb Z.gtb Z.compare Pos.compare Pos.compare_cont];
          try reflexivity.
        cbn [mode_eq mode_index Z.eqb]. rewrite andb_false_r. reflexivity.
    + (* GlobalPlayback *)
      cbn [ret app andthen run_checks]. rewrite unused_ok. unfold inspectingb. cbn [andthen ret]. rewrite ?app_nil_r.
      destruct (mode_le m MMinimum); reflexivity.
    + (* InstrumentId *)
      rewrite (instrument_ok _ _ _ _ H). cbn [andthen ret app run_checks]. rewrite unused_ok. cbn [andthen ret]. rewrite ?app_nil_r.
      unfold inspectingb. destruct (mode_le m MMinimum); reflexivity.
    + (* NoteId *)
      rewrite (note_ok _ _ _ _ H). cbn [andthen ret app run_checks]. rewrite unused_ok. cbn [andthen ret]. rewrite ?app_nil_r.
      unfold inspectingb. destruct (mode_le m MMinimum); reflexivity.
    + (* HeatTemperature *)
      rewrite (clamp_ok _ _ _ _ H). cbn [andthen ret app]. rewrite ?app_nil_r.
      destruct m; try contradiction; cbn -[insideb]; try rewrite andb_false_r; reflexivity.
    + (* HeatMode *)
      cbn. destruct (mode_le m MMinimum); reflexivity.
    + (* LinkId *)
      cbn. destruct (mode_le m MMinimum); reflexivity.
    + (* Bar *)
      change (andthen (bar_allowed e m o w) (fun x => andthen (bar_within_size e m o x) (fun y => ret y)))
        with (run_all [bar_allowed; bar_within_size] e m o w). rewrite (bar_ok e m o w H).
      cbn [andthen ret app]. rewrite ?app_nil_r. reflexivity.
    + (* Recipe *)
      pose proof (recipe_ok e m (put o Recipe v) w H) as K.
      assert (A : andthen (recipe_is_known e m (put o Recipe v) w)
                    (fun x => andthen (recipe_is_allowed e m (put o Recipe v) x)
                      (fun x0 => andthen (items_fit_recipe e m (put o Recipe v) x0) (fun x1 => ret x1))) =
                  andthen (andthen (recipe_is_known e m (put o Recipe v) w)
                             (fun x => recipe_is_allowed e m (put o Recipe v) x))
                    (fun x0 => items_fit_recipe e m (put o Recipe v) x0)).
      { rewrite andthen_assoc.
        destruct (recipe_is_known e m (put o Recipe v) w) as [ws [x|s]]; [|reflexivity]. cbn [andthen].
        destruct (recipe_is_allowed e m (put o Recipe v) x) as [ws2 [y|s]]; [|reflexivity]. cbn [andthen].
        rewrite ret_r. reflexivity. }
      rewrite A, K. clear A K.
      unfold andthen. rewrite (fit_ok _ _ _ _ H).
      rewrite put_same, (put_other o Recipe v Items) by discriminate.
      unfold inspectingb. destruct (mode_le m MMinimum); [reflexivity|]. cbn [negb andb orb].
      destruct H as [->|[s ->]]; [reflexivity|]. cbn [is_none negb andb].
      destruct (item_names (o Items)) as [|i l]; [|destruct (allowed_items e v)]; cbn [app ret]; rewrite ?app_nil_r;
        try (eexists; reflexivity).
      * destruct (allowed_items e v); cbn [misfit]; rewrite ?app_nil_r; reflexivity.
      * rewrite <- app_assoc. reflexivity.
    + (* RecipeQuality *)
      cbn. destruct (mode_le m MMinimum); reflexivity.
    + (* Facing *)
      rewrite (four_ok _ _ _ _ H). unfold inspectingb.
      destruct m; try contradiction; cbn -[Z.modulo]; destruct H as [->|[d [-> D]]]; cbn -[Z.modulo];
        rewrite ?app_nil_r; try reflexivity; eexists; reflexivity.
    + (* Items *)
      rewrite modules_ok. cbn [andthen ret app]. rewrite ?app_nil_r.
      rewrite (put_other o Items v Recipe) by discriminate. rewrite put_same. reflexivity.
Qed.

(** ** Warnings *)
Lemma existsb_in z l : existsb (Z.eqb z) l = true <-> In z l.
Proof.
  rewrite existsb_exists. split.
  - intros [y [H E]]. apply Z.eqb_eq in E. congruence.
  - intros H. exists z. split; [exact H|apply Z.eqb_refl].
Qed.
Lemma existsb_out z l : existsb (Z.eqb z) l = false <-> ~ In z l.
Proof. rewrite <- existsb_in. destruct (existsb (Z.eqb z) l); split; intros; congruence. Qed.
Lemma one_of_in l s : one_of l s = true <-> In s l.
Proof.
  unfold one_of. rewrite existsb_exists. split.
  - intros [y [H E]]. apply pystr_eqb_eq in E. congruence.
  - intros H. exists s. split; [exact H|apply pystr_eqb_refl].
Qed.
Lemma one_of_out l s : one_of l s = false <-> ~ In s l.
Proof. rewrite <- one_of_in. destruct (one_of l s); split; intros; congruence. Qed.

Lemma misfit_iff l items i : misfit l items = Some i <->
  exists p s, items = p ++ i :: s /\ (forall j, In j p -> In j l) /\ ~ In i l.
Proof.
  induction items as [|x r IH]; cbn [misfit].
  - split; [discriminate|]. intros [[|? ?] [s [E _]]]; discriminate.
  - destruct (one_of l x) eqn:O.
    + apply one_of_in in O. rewrite IH. split.
      * intros [p [s [-> [P I]]]]. exists (x :: p), s. repeat split; auto.
        intros j [<-|J]; auto.
      * intros [[|y p] [s [E [P I]]]]; cbn in E; injection E as -> E; [contradiction|].
        exists p, s. repeat split; auto. intros j J. apply P. right. exact J.
    + apply one_of_out in O. split.
      * intros H. injection H as ->. exists [], r. repeat split; auto. intros j [].
      * intros [[|y p] [s [E [P I]]]]; cbn in E; injection E as -> E; [reflexivity|].
        exfalso. apply O, P. left. reflexivity.
Qed.

Lemma in_extra e a x : In x (extra e a) <-> x = WUnknownKeyword /\ unknown_entity e = false /\ extra_keys e a = true.
Proof.
  unfold extra. destruct (unknown_entity e); [split; [intros []|intros [_ [H _]]; discriminate]|].
  destruct (extra_keys e a); cbn; split.
  - intros [<-|[]]. auto.
  - intros [-> _]. auto.
  - intros [].
  - intros [_ [_ H]]. discriminate.
Qed.

Lemma module_limited_iff e r i : module_limited e r i = true <->
  exists lim, limitation e i = Some lim /\ (forall s, r = VStr s -> ~ In s lim).
Proof.
  unfold module_limited. destruct (limitation e i) as [lim|].
  - rewrite negb_true_iff. split.
    + intros H. exists lim. split; [reflexivity|]. intros s ->. apply one_of_out, H.
    + intros [lim' [E H]]. injection E as <-. destruct r as [| | | |s| |]; try reflexivity.
      apply one_of_out, H. reflexivity.
  - split; [discriminate|]. intros [lim [E _]]. discriminate.
Qed.

Ltac inv H := inversion H; subst; clear H.

Lemma remarks_iff e a m o v w x : m <> MNone -> has_type (type_of a) w -> (a = Items -> w = v) ->
  In x (remarks e a m o v w) <-> warned e a m o v w x.
Proof.
  intros NM H IT. unfold remarks.
  destruct (mode_le m MMinimum) eqn:LE.
  { assert (m = MMinimum) as -> by (destruct m; cbn in LE; congruence).
    split; [intros []|]. intros K.
    inv K; match goal with X : inspecting MMinimum |- _ => destruct X; discriminate end. }
  assert (IN : inspecting m) by (destruct m; cbn in LE; try discriminate; [left|right]; reflexivity).
  destruct a; cbn [type_of] in H; rewrite ?in_app_iff, ?in_extra.
  - (* Volume *)
    split.
    + intros [K|[-> [K1 K2]]].
      * destruct (negb (is_none w) && negb (insideb 0 1 w) && mode_eq m MStrict) eqn:B; [|destruct K].
        destruct K as [<-|[]].
        apply andb_true_iff in B. destruct B as [B M]. apply andb_true_iff in B. destruct B as [B1 B2].
        apply negb_true_iff in B1, B2. destruct m; try discriminate M.
        constructor; [apply is_none_not, B1|apply insideb_not, B2].
      * apply warned_extra; auto.
    + intros K. inv K.
      * left. match goal with A : _ <> VNone, B : ~ within _ _ _ |- _ =>
          apply is_none_not in A; apply insideb_not in B; rewrite A, B end. left. reflexivity.
      * right. auto.
  - (* GlobalPlayback *)
    split.
    + intros [-> [K1 K2]]. apply warned_extra; auto.
    + intros K. inv K. auto.
  - (* InstrumentId *)
    split.
    + intros [K|[-> [K1 K2]]].
      * destruct (instruments e) as [known|] eqn:I; [|destruct K].
        destruct w; try destruct K. destruct (existsb (Z.eqb z) known) eqn:X; [destruct K|].
        destruct K as [<-|[]]. econstructor; eauto. apply existsb_out, X.
      * apply warned_extra; auto.
    + intros K. inv K.
      * left. match goal with A : instruments e = _ |- _ => rewrite A end.
        match goal with A : ~ In _ _ |- _ => apply existsb_out in A; rewrite A end. left. reflexivity.
      * right. auto.
  - (* NoteId *)
    split.
    + intros [K|[-> [K1 K2]]].
      * destruct (instruments e) as [known|] eqn:I; [|destruct K].
        destruct (o InstrumentId) as [| |i| | | |] eqn:O; try destruct K.
        destruct w as [| |n| | | |]; try destruct K.
        destruct (existsb (Z.eqb i) known) eqn:X; [|destruct K].
        destruct (existsb (Z.eqb n) (notes e i)) eqn:Y; [destruct K|].
        destruct K as [<-|[]]. econstructor; eauto; [apply existsb_in, X|apply existsb_out, Y].
      * apply warned_extra; auto.
    + intros K. inv K.
      * left. match goal with A : instruments e = _, B : o InstrumentId = _ |- _ => rewrite A, B end.
        match goal with A : In _ _, B : ~ In _ _ |- _ => apply existsb_in in A; apply existsb_out in B; rewrite A, B end.
        left. reflexivity.
      * right. auto.
  - (* HeatTemperature *)
    split.
    + intros K. destruct (negb (is_none w) && negb (insideb 0 1000 w) && mode_eq m MPedantic) eqn:B; [|destruct K].
      destruct K as [<-|[]].
      apply andb_true_iff in B. destruct B as [B M]. apply andb_true_iff in B. destruct B as [B1 B2].
      apply negb_true_iff in B1, B2. destruct m; try discriminate M.
      constructor; [apply is_none_not, B1|apply insideb_not, B2].
    + intros K. inv K.
      * match goal with A : _ <> VNone, B : ~ within _ _ _ |- _ =>
          apply is_none_not in A; apply insideb_not in B; rewrite A, B end. left. reflexivity.
      * exfalso. match goal with F : _ \/ _ |- _ => unfold fluid_attr in F; intuition discriminate end.
  - (* HeatMode *)
    split; [intros []|]. intros K. inv K.
    match goal with F : _ \/ _ |- _ => unfold fluid_attr in F; intuition discriminate end.
  - (* LinkId *)
    split; [intros []|]. intros K. inv K.
    match goal with F : _ \/ _ |- _ => unfold fluid_attr in F; intuition discriminate end.
  - (* Bar *)
    split.
    + intros [K|K].
      * destruct (is_none w) eqn:N; [destruct K|]. destruct (bar_enabled e) as [[|]|] eqn:B; try destruct K as [<-|[]]; try destruct K.
        constructor; auto. apply is_none_not, N.
      * destruct (inventory_size e) as [size|] eqn:S; [|destruct K]. destruct w as [| |z| | | |]; try destruct K.
        destruct (mode_eq m MPedantic && negb (size =? 0) && (size <=? z)) eqn:B; [|destruct K].
        destruct K as [<-|[]].
        apply andb_true_iff in B. destruct B as [B B3]. apply andb_true_iff in B. destruct B as [B1 B2].
        destruct m; try discriminate B1. constructor; auto; [|apply Z.leb_le, B3].
        apply negb_true_iff in B2. apply Z.eqb_neq, B2.
    + intros K. inv K.
      * left. match goal with A : _ <> VNone, B : bar_enabled e = _ |- _ => apply is_none_not in A; rewrite A, B end.
        left. reflexivity.
      * right. match goal with A : inventory_size e = _ |- _ => rewrite A end.
        match goal with A : _ <> 0, B : _ <= _ |- _ => apply Z.eqb_neq in A; apply Z.leb_le in B; rewrite A, B end.
        left. reflexivity.
      * exfalso. match goal with F : _ \/ _ |- _ => unfold fluid_attr in F; intuition discriminate end.
  - (* Recipe *)
    split.
    + intros K. destruct w as [| | | |r| |]; try destruct K. rewrite !in_app_iff in K. destruct K as [K|[K|K]].
      * destruct (recipe_known e r) eqn:R; [destruct K|]. destruct K as [<-|[]]. constructor; auto.
      * destruct (machine_recipes e) as [l|] eqn:M; [|destruct K].
        destruct (recipe_known e r) eqn:R; [|destruct K]. destruct (one_of l r) eqn:O; [destruct K|].
        destruct K as [<-|[]]. apply one_of_out in O. econstructor; eauto.
      * destruct (allowed_items e v) as [l|] eqn:A; [|destruct K].
        destruct (misfit l (item_names (o Items))) as [i|] eqn:M; [|destruct K].
        destruct K as [<-|[]]. apply misfit_iff in M. destruct M as [p [s [E [P I]]]]. econstructor; eauto.
    + intros K. inv K; rewrite ?in_app_iff.
      * left. match goal with A : recipe_known e _ = _ |- _ => rewrite A end. left. reflexivity.
      * right. left. match goal with A : recipe_known e _ = _, B : machine_recipes e = _, C : ~ In _ _ |- _ =>
          apply one_of_out in C; rewrite A, B, C end. left. reflexivity.
      * right. right. match goal with A : allowed_items e _ = _ |- _ => rewrite A end.
        match goal with |- context [misfit ?l ?it] =>
          assert (M : misfit l it = Some i) by (apply misfit_iff; eauto) end.
        rewrite M. left. reflexivity.
      * exfalso. match goal with F : _ \/ _ |- _ => unfold fluid_attr in F; intuition discriminate end.
  - (* RecipeQuality *)
    split; [intros []|]. intros K. inv K.
    match goal with F : _ \/ _ |- _ => unfold fluid_attr in F; intuition discriminate end.
  - (* Facing *)
    split.
    + intros K. destruct w as [| |d| | | |]; try destruct K. destruct (d mod 4 =? 0) eqn:M; [destruct K|].
      destruct K as [<-|[]]. constructor; auto. apply Z.eqb_neq, M.
    + intros K. inv K.
      * match goal with A : _ <> 0 |- _ => apply Z.eqb_neq in A; rewrite A end. left. reflexivity.
      * exfalso. match goal with F : _ \/ _ |- _ => unfold fluid_attr in F; intuition discriminate end.
  - (* Items *)
    specialize (IT eq_refl). subst w. split.
    + intros K. destruct H as [->|[l ->]]; [destruct K|]. cbn [is_none item_names] in K.
      destruct (is_none (o Recipe)) eqn:N; [destruct K|]. apply is_none_not in N.
      apply in_map_iff in K. destruct K as [i [<- K]]. apply filter_In in K. destruct K as [I L].
      apply module_limited_iff in L. destruct L as [lim [L1 L2]].
      econstructor; eauto.
    + intros K. inv K.
      * cbn [is_none item_names]. match goal with A : o Recipe <> VNone |- _ => apply is_none_not in A; rewrite A end.
        apply in_map_iff. exists i. split; [reflexivity|]. apply filter_In. split; [assumption|].
        apply module_limited_iff. eauto.
      * exfalso. match goal with F : _ \/ _ |- _ => unfold fluid_attr in F; intuition discriminate end.
  - (* FluidName *)
    split.
    + intros [K|[-> [K1 K2]]].
      * destruct w as [| | | |s| |]; try destruct K. destruct (fluid_known e s) eqn:F; [destruct K|].
        destruct K as [<-|[]]. constructor; auto.
      * apply warned_extra; auto. left. left. reflexivity.
    + intros K. inv K.
      * left. match goal with A : fluid_known e _ = _ |- _ => rewrite A end. left. reflexivity.
      * right. auto.
  - split; [intros [-> [K1 K2]]; apply warned_extra; auto; left; unfold fluid_attr; auto|].
    intros K. inv K. auto.
  - split; [intros [-> [K1 K2]]; apply warned_extra; auto; left; unfold fluid_attr; auto|].
    intros K. inv K. auto.
  - split; [intros [-> [K1 K2]]; apply warned_extra; auto; left; unfold fluid_attr; auto|].
    intros K. inv K. auto.
Qed.

(** ** The setter *)
Definition same (o p : obj) : Prop := forall b, o b = p b.

Definition hastyb (a : attr) : bool := match a with Recipe | RecipeQuality => true | _ => false end.
Lemma hastyb_iff a : hastyb a = true <-> hasty a.
Proof. unfold hasty. split; [destruct a; cbn; intros H; try discriminate; auto|intros [->| ->]; reflexivity]. Qed.

Definition assign_result (e : env) (fatal : warn -> bool) (a : attr) (m : mode) (o : obj) (v : pyval) (r : outcome) : Prop :=
  match coerce e (strict_types a) (type_of a) (input a v) with
  | None => error r = Some DataFormat /\ issued r = [] /\ same (after r) (if hastyb a then put o a v else o)
  | Some w =>
      if refusedb e a m o w then
        error r = Some DataFormat /\ issued r = [] /\ same (after r) (if fluidb a then put o a w else o)
      else if tripsb e a m o v w then
        error r = Some (Crash TypeError) /\ issued r = [] /\ same (after r) (if hastyb a then put o a v else o)
      else
        (exists p x s, remarks e a m o v w = p ++ x :: s /\ Forall (fun w => fatal w = false) p /\ fatal x = true /\
           error r = Some (Escalated x) /\ issued r = p /\ same (after r) (put o a (settled a m w))) \/
        (Forall (fun w => fatal w = false) (remarks e a m o v w) /\
         error r = None /\ issued r = remarks e a m o v w /\ same (after r) (put o a (stored a m w)))
  end.

Lemma same_put2 o a v w : same (put (put o a v) a w) (put o a w).
Proof. intros b. apply put_put. Qed.
Lemma put_self o a : same (put o a (o a)) o.
Proof. intros b. unfold put. destruct (attr_eq_dec a b); congruence. Qed.
Lemma same_trans o p q : same o p -> same p q -> same o q.
Proof. intros H K b. rewrite H. apply K. Qed.
Lemma same_put o p a v : same o p -> same (put o a v) (put p a v).
Proof. intros H b. unfold put. destruct (attr_eq_dec a b); auto. Qed.
Lemma same_refl o : same o o.
Proof. intros b. reflexivity. Qed.

Lemma stored_none a m w : stored a m w = match setter_of a with
  | Defaulting d | Reverting d => none_as d (settled a m w) | _ => settled a m w end.
Proof. destruct a; try reflexivity; destruct w; reflexivity. Qed.

Lemma strict_setter a : strict_types a = match setter_of a with Replacing => true | _ => false end.
Proof. destruct a; reflexivity. Qed.


Definition kont (a : attr) (o' : obj) (w : pyval) : obj :=
  put o' a (match setter_of a with Defaulting d | Reverting d => none_as d w | _ => w end).

Lemma assign_attempt e fatal a m o v : m <> MNone ->
  assign e fatal a m o v =
  let r := attempt e fatal (strict_types a) a m (seen a o v) v (kont a) in
  match a, error r with
  | Items, Some DataFormat => mkOut (put (after r) a (o a)) (issued r) (error r)
  | _, _ => r
  end.
Proof.
  intros NM. assert (MB : mode_bool m = true) by (destruct m; try contradiction; reflexivity).
  unfold assign. destruct a; cbn [setter_of]; rewrite ?MB; reflexivity.
Qed.

Lemma attempt_spec e fatal a m o v k : m <> MNone -> well_behaved e -> (fluid_attr a -> typed_fluid o) ->
  let r := attempt e fatal (strict_types a) a m (seen a o v) v k in
  match coerce e (strict_types a) (type_of a) (input a v) with
  | None => r = mkOut (seen a o v) [] (Some DataFormat)
  | Some w =>
      if refusedb e a m o w then
        r = mkOut (if fluidb a then put (seen a o v) a w else seen a o v) [] (Some DataFormat)
      else if tripsb e a m o v w then r = mkOut (seen a o v) [] (Some (Crash TypeError))
      else
        (exists p x s, remarks e a m o v w = p ++ x :: s /\ Forall (fun w => fatal w = false) p /\ fatal x = true /\
           r = mkOut (put (seen a o v) a (settled a m w)) p (Some (Escalated x))) \/
        (Forall (fun w => fatal w = false) (remarks e a m o v w) /\
         r = mkOut (k (put (seen a o v) a (settled a m w)) (settled a m w)) (remarks e a m o v w) None)
  end.
Proof.
  intros NM W TF r. subst r.
  assert (MN : mode_eq m MNone = false) by (destruct m; try contradiction; reflexivity).
  pose proof (va_spec e a m o v NM W TF) as V. unfold va_result in V.
  unfold attempt. rewrite MN.
  destruct (coerce e (strict_types a) (type_of a) (input a v)) as [w|].
  - destruct (refusedb e a m o w).
    + destruct V as [ws ->]. reflexivity.
    + destruct (tripsb e a m o v w).
      * destruct V as [ws ->]. reflexivity.
      * rewrite V. destruct (issue_spec fatal (remarks e a m o v w)) as [[p [x [s [E [P [X J]]]]]]|[P J]]; rewrite J.
        -- left. exists p, x, s. auto.
        -- right. auto.
  - rewrite V. reflexivity.
Qed.

Lemma assign_spec e fatal a m o v : m <> MNone -> well_behaved e -> (fluid_attr a -> typed_fluid o) ->
  assign_result e fatal a m o v (assign e fatal a m o v).
Proof.
  intros NM W TF. pose proof (attempt_spec e fatal a m o v (kont a) NM W TF) as G. cbv zeta in G.
  rewrite (assign_attempt _ _ _ _ _ _ NM). cbv zeta. unfold assign_result.
  destruct (coerce e (strict_types a) (type_of a) (input a v)) as [w|] eqn:C.
  - destruct (refusedb e a m o w) eqn:R; [|destruct (tripsb e a m o v w) eqn:T].
    + rewrite G. cbn [error after issued].
      assert (A : a <> Items /\ seen a o v = o) by (unfold refusedb in R; destruct a; try discriminate R; split; congruence || reflexivity).
      destruct A as [A ->]. destruct a; try contradiction; cbn [error after issued]; repeat split; apply same_refl.
    + rewrite G. cbn [error after issued].
      assert (A : a = Facing \/ a = Recipe).
      { unfold tripsb in T. apply andb_true_iff in T. destruct T as [_ T]. destruct a; try discriminate T; auto. }
      destruct A as [-> | ->]; cbn; repeat split; apply same_refl.
    + assert (SP : forall x, same (put (seen a o v) a x) (put o a x)).
      { intros x. destruct a; try apply same_refl; apply same_put2. }
      destruct G as [[p [x [s [E [P [X ->]]]]]]|[P ->]]; cbn [error after issued].
      * left. exists p, x, s. destruct a; cbn [error after issued]; repeat split; auto.
      * right. assert (K : same (kont a (put (seen a o v) a (settled a m w)) (settled a m w)) (put o a (stored a m w))).
        { unfold kont. eapply same_trans; [apply same_put2|]. eapply same_trans; [apply SP|].
          rewrite stored_none. destruct (setter_of a); apply same_refl. }
        destruct a; cbn [error after issued]; repeat split; auto.
  - rewrite G. cbn [error after issued].
    destruct a; cbn [error after issued hastyb seen]; repeat split; try apply same_refl.
    eapply same_trans; [apply same_put2|]. apply put_self.
Qed.

Lemma kept e a v w : well_behaved e -> stands_for e a v w -> a = Items -> w = v.
Proof. intros W S ->. exact (items_kept e W _ _ _ S). Qed.
Lemma stands_type e a v w : well_behaved e -> stands_for e a v w -> has_type (type_of a) w.
Proof. intros W S. exact (converts e W _ _ _ _ S). Qed.
Lemma stands_fun e a v w w' : stands_for e a v w -> stands_for e a v w' -> w = w'.
Proof. unfold stands_for. congruence. Qed.

(** One statement from which the rest follows. *)
Lemma assign_cases e fatal a m o v : m <> MNone -> well_behaved e -> (fluid_attr a -> typed_fluid o) ->
  let r := assign e fatal a m o v in
  ((forall w, ~ stands_for e a v w) /\
   error r = Some DataFormat /\ issued r = [] /\ same (after r) (if hastyb a then put o a v else o)) \/
  (exists w, stands_for e a v w /\
   ((refused e a m o w /\ error r = Some DataFormat /\ issued r = [] /\ same (after r) (if fluidb a then put o a w else o)) \/
    (~ refused e a m o w /\ trips e a m o v w /\ error r = Some (Crash TypeError) /\ issued r = [] /\
     same (after r) (if hastyb a then put o a v else o)) \/
    (~ refused e a m o w /\ ~ trips e a m o v w /\ exists p x s, remarks e a m o v w = p ++ x :: s /\
       Forall (fun w => fatal w = false) p /\ fatal x = true /\
       error r = Some (Escalated x) /\ issued r = p /\ same (after r) (put o a (settled a m w))) \/
    (~ refused e a m o w /\ ~ trips e a m o v w /\ Forall (fun w => fatal w = false) (remarks e a m o v w) /\
     error r = None /\ issued r = remarks e a m o v w /\ same (after r) (put o a (stored a m w))))).
Proof.
  intros NM W TF r. pose proof (assign_spec e fatal a m o v NM W TF) as H. fold r in H. unfold assign_result in H.
  unfold stands_for. destruct (coerce e (strict_types a) (type_of a) (input a v)) as [w|].
  - right. exists w. split; [reflexivity|].
    destruct (refusedb e a m o w) eqn:R.
    + left. apply refusedb_iff in R. tauto.
    + right. assert (NR : ~ refused e a m o w) by (rewrite <- refusedb_iff; congruence).
      destruct (tripsb e a m o v w) eqn:T.
      * left. apply tripsb_iff in T. tauto.
      * right. assert (NT : ~ trips e a m o v w) by (rewrite <- tripsb_iff; congruence).
        destruct H as [H|H]; [left|right]; tauto.
  - left. split; [intros; discriminate|exact H].
Qed.

Ltac cases_of H :=
  destruct H as [[N [E [J A]]]|[u [S [[R [E [J A]]]|[[NR [T [E [J A]]]]|
    [[NR [NT [p [y [s [RM [P [X [E [J A]]]]]]]]]]|[NR [NT [P [E [J A]]]]]]]]]]].

Lemma accepts e fatal a m o v : m <> MNone -> well_behaved e -> (fluid_attr a -> typed_fluid o) ->
  error (assign e fatal a m o v) = None <->
  exists w, stands_for e a v w /\ ~ refused e a m o w /\ ~ trips e a m o v w /\
            (forall x, warned e a m o v w x -> fatal x = false).
Proof.
  intros NM W TF. cases_of (assign_cases e fatal a m o v NM W TF); rewrite E.
  - split; [discriminate|]. intros [w [S _]]. elim (N w S).
  - split; [discriminate|]. intros [w' [S' [NR _]]]. rewrite (stands_fun _ _ _ _ _ S' S) in NR. contradiction.
  - split; [discriminate|]. intros [w' [S' [_ [NT _]]]]. rewrite (stands_fun _ _ _ _ _ S' S) in NT. contradiction.
  - split; [discriminate|]. intros [w' [S' [_ [_ F]]]]. rewrite (stands_fun _ _ _ _ _ S' S) in F.
    rewrite (F y) in X; [discriminate|].
    apply remarks_iff; [exact NM|exact (stands_type _ _ _ _ W S)|apply (kept _ _ _ _ W S)|].
    rewrite RM. apply in_app_iff. right. left. reflexivity.
  - split; [|reflexivity]. intros _. exists u. repeat split; auto. intros x K.
    apply remarks_iff in K; [|exact NM|exact (stands_type _ _ _ _ W S)|apply (kept _ _ _ _ W S)].
    rewrite Forall_forall in P. apply P, K.
Qed.

Lemma success e fatal a m o v w : m <> MNone -> well_behaved e -> (fluid_attr a -> typed_fluid o) ->
  stands_for e a v w -> error (assign e fatal a m o v) = None ->
  (forall b, after (assign e fatal a m o v) b = put o a (stored a m w) b) /\
  (forall x, In x (issued (assign e fatal a m o v)) <-> warned e a m o v w x).
Proof.
  intros NM W TF S0 E0. cases_of (assign_cases e fatal a m o v NM W TF);
    try congruence.
  rewrite (stands_fun _ _ _ _ _ S S0) in *. split; [exact A|]. intros x. rewrite J.
  apply remarks_iff; [exact NM|exact (stands_type _ _ _ _ W S0)|apply (kept _ _ _ _ W S0)].
Qed.

Lemma data_format e fatal a m o v : m <> MNone -> well_behaved e -> (fluid_attr a -> typed_fluid o) ->
  error (assign e fatal a m o v) = Some DataFormat <->
  (forall w, ~ stands_for e a v w) \/ (exists w, stands_for e a v w /\ refused e a m o w).
Proof.
  intros NM W TF. cases_of (assign_cases e fatal a m o v NM W TF); rewrite E.
  - split; auto.
  - split; auto. intros _. right. eauto.
  - split; [discriminate|]. intros [K|[w' [S' K]]]; [elim (K _ S)|]. rewrite (stands_fun _ _ _ _ _ S' S) in K. contradiction.
  - split; [discriminate|]. intros [K|[w' [S' K]]]; [elim (K _ S)|]. rewrite (stands_fun _ _ _ _ _ S' S) in K. contradiction.
  - split; [discriminate|]. intros [K|[w' [S' K]]]; [elim (K _ S)|]. rewrite (stands_fun _ _ _ _ _ S' S) in K. contradiction.
Qed.

Lemma trips_refused e a m o v w : trips e a m o v w -> ~ refused e a m o w.
Proof.
  intros T R. unfold trips, refused, fluid_attr in *.
  destruct T as [[-> _]|[-> _]]; destruct R as [[K _]|[K _]]; intuition discriminate.
Qed.

Lemma crash e fatal a m o v x : m <> MNone -> well_behaved e -> (fluid_attr a -> typed_fluid o) ->
  error (assign e fatal a m o v) = Some (Crash x) <->
  x = TypeError /\ exists w, stands_for e a v w /\ trips e a m o v w.
Proof.
  intros NM W TF. cases_of (assign_cases e fatal a m o v NM W TF); rewrite E.
  - split; [discriminate|]. intros [_ [w [S _]]]. elim (N w S).
  - split; [discriminate|]. intros [_ [w' [S' K]]]. rewrite (stands_fun _ _ _ _ _ S' S) in K.
    elim (trips_refused _ _ _ _ _ _ K R).
  - split; [intros K; injection K as <-; eauto|]. intros [-> _]. reflexivity.
  - split; [discriminate|]. intros [_ [w' [S' K]]]. rewrite (stands_fun _ _ _ _ _ S' S) in K. contradiction.
  - split; [discriminate|]. intros [_ [w' [S' K]]]. rewrite (stands_fun _ _ _ _ _ S' S) in K. contradiction.
Qed.

Lemma escalated e fatal a m o v x : m <> MNone -> well_behaved e -> (fluid_attr a -> typed_fluid o) ->
  error (assign e fatal a m o v) = Some (Escalated x) ->
  exists w, stands_for e a v w /\ warned e a m o v w x /\ fatal x = true /\
    (forall y, In y (issued (assign e fatal a m o v)) -> warned e a m o v w y /\ fatal y = false).
Proof.
  intros NM W TF E0. cases_of (assign_cases e fatal a m o v NM W TF);
    try congruence.
  assert (y = x) by congruence. subst y. exists u.
  assert (K : forall z, In z (remarks e a m o v u) -> warned e a m o v u z).
  { intros z. apply remarks_iff; [exact NM|exact (stands_type _ _ _ _ W S)|apply (kept _ _ _ _ W S)]. }
  rewrite RM in K. repeat split; auto.
  - apply K, in_app_iff. right. left. reflexivity.
  - rewrite J in H. apply K, in_app_iff. auto.
  - rewrite J in H. rewrite Forall_forall in P. auto.
Qed.

Lemma none_mode e fatal a o v : well_behaved e ->
  error (assign e fatal a MNone o v) = None /\ issued (assign e fatal a MNone o v) = [] /\
  exists x, unvalidated e a v x /\ forall b, after (assign e fatal a MNone o v) b = put o a x b.
Proof.
  intros W. unfold assign. cbn [mode_bool mode_eq mode_index negb Z.eqb].
  destruct (fluidb a) eqn:FB.
  - apply fluidb_iff in FB.
    assert (S : setter_of a = Replacing) by (destruct FB as [->|[->|[->| ->]]]; reflexivity). rewrite S.
    unfold attempt. cbn [mode_eq mode_index Z.eqb]. unfold validate_assignment, validate_field, convert.
    rewrite input_before. replace (input a v) with v by (destruct FB as [->|[->|[->| ->]]]; destruct v; reflexivity).
    assert (O : outer a = []) by (destruct FB as [->|[->|[->| ->]]]; reflexivity). rewrite O.
    assert (I : forall w, has_type (type_of a) w -> run_all (inner a) e MNone o w = ([], inl w)).
    { intros w H. destruct FB as [->|[->|[->| ->]]]; cbn [inner run_all]; try reflexivity.
      rewrite (fluid_ok e MNone o w H). reflexivity. }
    assert (CK : forall q, run_checks (checks a) e MNone q = ([], inl tt)).
    { intros q. destruct FB as [->|[->|[->| ->]]]; reflexivity. }
    assert (U : forall x, stands_for e a v x \/ ((forall w, ~ stands_for e a v w) /\ x = v) -> unvalidated e a v x).
    { intros x H. destruct FB as [->|[->|[->| ->]]]; destruct v; exact H. }
    assert (IV : input a v = v) by (destruct FB as [->|[->|[->| ->]]]; destruct v; reflexivity).
    assert (ST : strict_types a = true) by (destruct FB as [->|[->|[->| ->]]]; reflexivity).
    destruct (coerce e true (type_of a) v) as [w|] eqn:C.
    + rewrite (I w (converts e W _ _ _ _ C)). cbn [andthen run_all ret app]. rewrite CK. cbn. repeat split.
      exists w. split.
      * apply U. left. unfold stands_for. rewrite ST, IV. exact C.
      * intros b. apply put_put.
    + cbn [halt andthen run_all ret app]. rewrite CK. cbn. repeat split.
      exists v. split.
      * apply U. right. split; [|reflexivity]. intros w. unfold stands_for. rewrite ST, IV, C. discriminate.
      * intros b. apply put_put.
  - destruct a; try discriminate FB; cbn; repeat split; eexists; (split; [|intros b; reflexivity]);
      destruct v; reflexivity.
Qed.

Lemma leaves_ok e fatal a m o v f : m <> MNone -> well_behaved e -> (fluid_attr a -> typed_fluid o) ->
  error (assign e fatal a m o v) = Some f ->
  leaves e a m o v f (after (assign e fatal a m o v) a) /\
  (forall b, b <> a -> after (assign e fatal a m o v) b = o b).
Proof.
  intros NM W TF E0.
  assert (D1 : ~ (hasty a /\ fluid_attr a)).
  { unfold hasty, fluid_attr. intros [[->| ->] K]; intuition discriminate. }
  assert (HF : forall r, same (after r) (if hastyb a then put o a v else o) -> f <> f \/ (forall x, f <> Escalated x) ->
               (forall w, ~ stands_for e a v w) \/ ~ fluid_attr a ->
               leaves e a m o v f (after r a) /\ (forall b, b <> a -> after r b = o b)).
  { intros r A [NF|NF] U; [congruence|].
    assert (L : leaves e a m o v f (after r a) <->
       ((hasty a /\ after r a = v) \/ (fluid_attr a /\ stands_for e a v (after r a)) \/
        (fluid_attr a /\ (forall w, ~ stands_for e a v w) /\ after r a = o a) \/
        (~ hasty a /\ ~ fluid_attr a /\ after r a = o a)))
      by (destruct f; [reflexivity|reflexivity|elim (NF w); reflexivity]).
    rewrite L. clear L. destruct (hastyb a) eqn:HB.
    - apply hastyb_iff in HB. split.
      + left. rewrite (A a), put_same. auto.
      + intros b N. rewrite (A b). apply put_other, N.
    - assert (NH : ~ hasty a) by (rewrite <- hastyb_iff; congruence). split.
      + right. right. rewrite (A a). destruct (fluidb a) eqn:FB.
        * apply fluidb_iff in FB. left. destruct U as [U|U]; [auto|contradiction].
        * right. repeat split; auto. rewrite <- fluidb_iff. congruence.
      + intros b _. apply A. }
  cases_of (assign_cases e fatal a m o v NM W TF).
  - apply HF; [exact A| |auto]. right. intros x K. congruence.
  - assert (f = DataFormat) by congruence. subst f. unfold leaves.
    destruct (fluidb a) eqn:FB.
    + apply fluidb_iff in FB. split.
      * right. left. rewrite (A a), put_same. auto.
      * intros b NB. rewrite (A b). apply put_other, NB.
    + assert (NFL : ~ fluid_attr a) by (rewrite <- fluidb_iff; congruence). split.
      * right. right. right. rewrite (A a). repeat split; auto.
        unfold refused in R. destruct R as [[-> _]|[K _]]; [|contradiction]. unfold hasty. intuition discriminate.
      * intros b _. apply A.
  - apply HF; [exact A| |right].
    + right. intros x K. congruence.
    + unfold trips in T. unfold fluid_attr. destruct T as [[-> _]|[-> _]]; intuition discriminate.
  - assert (f = Escalated y) by congruence. subst f. cbn. split.
    + exists u. rewrite (A a), put_same. auto.
    + intros b NB. rewrite (A b). apply put_other, NB.
  - congruence.
Qed.

Lemma errors_first e fatal a m o v : well_behaved e -> (fluid_attr a -> typed_fluid o) ->
  (error (assign e fatal a m o v) = Some DataFormat \/ exists x, error (assign e fatal a m o v) = Some (Crash x)) ->
  issued (assign e fatal a m o v) = [].
Proof.
  intros W TF H. destruct (mode_eq m MNone) eqn:MN.
  { assert (m = MNone) as -> by (destruct m; discriminate || reflexivity). apply none_mode, W. }
  assert (NM : m <> MNone) by (intros ->; discriminate).
  cases_of (assign_cases e fatal a m o v NM W TF);
    auto; destruct H as [H|[y0 H]]; congruence.
Qed.

Lemma untouched e fatal a m o v b : well_behaved e -> (fluid_attr a -> typed_fluid o) -> b <> a ->
  after (assign e fatal a m o v) b = o b.
Proof.
  intros W TF NB. destruct (mode_eq m MNone) eqn:MN.
  { assert (m = MNone) as -> by (destruct m; discriminate || reflexivity).
    destruct (none_mode e fatal a o v W) as [_ [_ [x [_ A]]]]. rewrite A. apply put_other, NB. }
  assert (NM : m <> MNone) by (intros ->; discriminate).
  destruct (error (assign e fatal a m o v)) as [f|] eqn:E0.
  - destruct (leaves_ok e fatal a m o v f NM W TF E0) as [_ K]. apply K, NB.
  - cases_of (assign_cases e fatal a m o v NM W TF);
      try congruence. rewrite (A b). apply put_other, NB.
Qed.

Lemma atomic e fatal a m o v f : well_behaved e ->
  ~ hasty a -> ~ fluid_attr a -> (forall x, f <> Escalated x) ->
  error (assign e fatal a m o v) = Some f -> forall b, after (assign e fatal a m o v) b = o b.
Proof.
  intros W NH NF NE E b.
  assert (TF : fluid_attr a -> typed_fluid o) by contradiction.
  destruct (attr_eq_dec b a) as [->|N]; [|apply untouched; auto].
  assert (NM : m <> MNone).
  { intros ->. destruct (none_mode e fatal a o v W) as [K _]. congruence. }
  destruct (leaves_ok e fatal a m o v f NM W TF E) as [L _]. unfold leaves in L.
  destruct f; [| |elim (NE w); reflexivity]; intuition.
Qed.

(** ** Stricter modes *)
Lemma le_inspecting m n : at_most m n -> inspecting m -> inspecting n.
Proof. unfold at_most, inspecting. destruct m, n; cbn; intros; intuition (try discriminate; lia). Qed.

Lemma warned_stricter e a m n o v w x : at_most m n -> ~ refused e a n o w ->
  warned e a m o v w x -> warned e a n o v w x.
Proof.
  intros L R K. pose proof (le_inspecting m n L) as I.
  inv K; try (econstructor; eauto; fail).
  - destruct n; cbn in L; unfold at_most in L; cbn in L; try lia; [constructor; auto|].
    elim R. left. auto.
  - destruct n; unfold at_most in L; cbn in L; try lia. constructor; auto.
  - destruct n; unfold at_most in L; cbn in L; try lia. constructor; auto.
Qed.

Lemma stricter_fails e fatal a m n o v : well_behaved e -> (fluid_attr a -> typed_fluid o) ->
  at_most m n -> error (assign e fatal a m o v) <> None -> error (assign e fatal a n o v) <> None.
Proof.
  intros W TF L F S.
  destruct (mode_eq m MNone) eqn:MN.
  { assert (m = MNone) as -> by (destruct m; discriminate || reflexivity). apply F, none_mode, W. }
  assert (NM : m <> MNone) by (intros ->; discriminate).
  assert (NN : n <> MNone) by (intros ->; destruct m; unfold at_most in L; cbn in L; try lia; contradiction).
  apply F. apply (accepts e fatal a m o v NM W TF).
  apply (accepts e fatal a n o v NN W TF) in S. destruct S as [w [S [R [T X]]]].
  exists w. repeat split; auto.
  - intros K. apply R. destruct K as [[A [-> B]]|[A [B C]]].
    + left. destruct n; unfold at_most in L; cbn in L; try lia. auto.
    + right. repeat split; auto. exact (le_inspecting _ _ L B).
  - intros K. apply T. destruct K as [[A [B C]]|[A [B C]]]; [left|right]; (repeat split; try tauto; exact (le_inspecting _ _ L B)).
  - intros x K. apply X, (warned_stricter e a m n o v w x L R K).
Qed.

Lemma stricter_warns e fatal a m n o v : well_behaved e -> (fluid_attr a -> typed_fluid o) ->
  at_most m n -> error (assign e fatal a n o v) = None ->
  incl (issued (assign e fatal a m o v)) (issued (assign e fatal a n o v)).
Proof.
  intros W TF L S. destruct (mode_eq m MNone) eqn:MN.
  { assert (m = MNone) as -> by (destruct m; discriminate || reflexivity).
    destruct (none_mode e fatal a o v W) as [_ [-> _]]. intros x []. }
  assert (NM : m <> MNone) by (intros ->; discriminate).
  assert (NN : n <> MNone) by (intros ->; destruct m; unfold at_most in L; cbn in L; try lia; contradiction).
  assert (S' : error (assign e fatal a m o v) = None).
  { destruct (error (assign e fatal a m o v)) eqn:E; [|reflexivity].
    elim (stricter_fails e fatal a m n o v W TF L); [congruence|exact S]. }
  pose proof S as S2. apply (accepts e fatal a n o v NN W TF) in S2. destruct S2 as [w [SF [R _]]].
  destruct (success e fatal a m o v w NM W TF SF S') as [_ I1].
  destruct (success e fatal a n o v w NN W TF SF S) as [_ I2].
  intros x K. apply I2. apply I1 in K. exact (warned_stricter e a m n o v w x L R K).
Qed.

Lemma typed_after e fatal a m o v : m <> MNone -> well_behaved e -> (fluid_attr a -> typed_fluid o) ->
  error (assign e fatal a m o v) = None -> has_type (type_of a) (after (assign e fatal a m o v) a).
Proof.
  intros NM W TF S. pose proof S as S2. apply (accepts e fatal a m o v NM W TF) in S2. destruct S2 as [w [SF [R [T _]]]].
  destruct (success e fatal a m o v w NM W TF SF S) as [A _]. rewrite A, put_same.
  pose proof (stands_type _ _ _ _ W SF) as H.
  destruct a; cbn [stored settled]; try exact H.
  - destruct w; try exact H. right. exists 0. split; [reflexivity|lia].
  - destruct H as [->|[d [-> D]]].
    + destruct m; left; reflexivity.
    + assert (0 <= d - d mod 4 < 16) by (pose proof (Z.mod_pos_bound d 4); pose proof (Z.mod_le d 4); lia).
      destruct m; right; eexists; split; try reflexivity; assumption.
  - destruct w; try exact H. right. exists []. reflexivity.
Qed.

(** ** ValidationResult *)
Lemma reissue_errors fatal r : error_list r <> [] ->
  exists f rest, error_list r = f :: rest /\ reissue_all fatal r = ([], Some f).
Proof. unfold reissue_all. destruct (error_list r) as [|f rest]; [contradiction|]. eauto. Qed.

Lemma reissue_warnings fatal r : error_list r = [] -> (forall w, In w (warning_list r) -> fatal w = false) ->
  reissue_all fatal r = (warning_list r, None).
Proof.
  intros E F. unfold reissue_all. rewrite E.
  destruct (issue_spec fatal (warning_list r)) as [[p [x [s [W [_ [X _]]]]]]|[_ ->]]; [|reflexivity].
  rewrite (F x) in X; [discriminate|]. rewrite W. apply in_app_iff. right. left. reflexivity.
Qed.

Lemma combined_shape : forall rs s, fold_left combine_results rs s =
  mkVR (error_list s ++ concat (map error_list rs)) (warning_list s ++ concat (map warning_list rs)).
Proof.
  induction rs as [|r rs IH]; intros [es ws]; simpl.
  - rewrite !app_nil_r. reflexivity.
  - rewrite IH. simpl. rewrite !app_assoc. reflexivity.
Qed.
Lemma no_errors : forall rs, Forall (fun r => error_list r = []) rs -> concat (map error_list rs) = [].
Proof. induction 1 as [|r rs E _ IH]; simpl; [reflexivity|]. rewrite E. exact IH. Qed.

Lemma combined_error fatal rs before r after f rest : rs = before ++ r :: after ->
  Forall (fun b => error_list b = []) before -> error_list r = f :: rest ->
  reissue_all fatal (fold_left combine_results rs (mkVR [] [])) = ([], Some f).
Proof.
  intros -> B E. rewrite combined_shape. unfold reissue_all. cbn [error_list app].
  rewrite map_app, concat_app, (no_errors _ B). simpl. rewrite E. reflexivity.
Qed.
Lemma combined_warnings fatal rs : Forall (fun r => error_list r = []) rs ->
  (forall r w, In r rs -> In w (warning_list r) -> fatal w = false) ->
  reissue_all fatal (fold_left combine_results rs (mkVR [] [])) = (concat (map warning_list rs), None).
Proof.
  intros B F. rewrite combined_shape, (reissue_warnings fatal); cbn [error_list warning_list app].
  - reflexivity.
  - apply no_errors, B.
  - intros w H. apply in_concat in H. destruct H as [l [L W]]. apply in_map_iff in L.
    destruct L as [r [<- R]]. exact (F r w R W).
Qed.

(** ** A small environment for the examples: conversions accept exactly the
    values of the type, one assembling machine, one fluid, one speaker. *)
Definition typedb (t : ty) (v : pyval) : bool :=
  match v, t with
  | VNone, _ => true
  | VBool _, TBool => true
  | VFloat _, TFloat => true
  | VFloat (Fin q), TNonNegative => Qle_bool 0 q
  | VFloat (Infinity false), TNonNegative => true
  | VInt z, TUint16 => (0 <=? z) && (z <? 2 ^ 16)
  | VInt z, TUint32 => (0 <=? z) && (z <? 2 ^ 32)
  | VInt z, TInt64 => (- 2 ^ 63 <=? z) && (z <? 2 ^ 63)
  | VInt z, TDirection => (0 <=? z) && (z <? 16)
  | VStr _, TStr => true
  | VItems _, TItems => true
  | VStr s, TLiteral l => one_of l s
  | _, _ => false
  end.
Lemma range_iff a b z : (a <=? z) && (z <? b) = true <-> a <= z < b.
Proof. rewrite andb_true_iff, Z.leb_le, Z.ltb_lt. reflexivity. Qed.
Lemma typedb_iff t v : typedb t v = true <-> has_type t v.
Proof.
  unfold has_type. split.
  - intros H. destruct v as [|b|z|[q|[|]|]|s|l|n]; [left; reflexivity| | | | | | | | |]; right;
      destruct t as [| | | | | | | | |options]; cbn [typedb] in H; try discriminate H.
    + eauto.
    + exists z. split; [reflexivity|]. apply range_iff, H.
    + exists z. split; [reflexivity|]. apply range_iff, H.
    + exists z. split; [reflexivity|]. apply range_iff, H.
    + exists z. split; [reflexivity|]. apply range_iff, H.
    + eauto.
    + left. exists q. split; [reflexivity|]. apply Qle_bool_iff, H.
    + eauto.
    + eauto.
    + right. reflexivity.
    + eauto.
    + eauto.
    + exists s. split; [reflexivity|]. apply one_of_in, H.
    + eauto.
  - intros [->|H]; [destruct t; reflexivity|].
    destruct t; cbn [typedb].
    + destruct H as [b ->]. reflexivity.
    + destruct H as [[q|[|]|] ->]; reflexivity.
    + destruct H as [[q [-> H]]| ->]; [apply Qle_bool_iff, H|reflexivity].
    + destruct H as [z [-> H]]. apply range_iff, H.
    + destruct H as [z [-> H]]. apply range_iff, H.
    + destruct H as [z [-> H]]. apply range_iff, H.
    + destruct H as [s ->]. reflexivity.
    + destruct H as [z [-> H]]. apply range_iff, H.
    + destruct H as [l ->]. reflexivity.
    + destruct H as [s [-> H]]. apply one_of_in, H.
Qed.

Definition toy : env := mkEnv
  (fun _ t v => if typedb t v then Some v else None)
  (Some [0; 1]) (fun i => if i =? 0 then [0; 1; 2] else [0])
  (Some true) (Some 16)
  (fun r => one_of [str "iron-gear-wheel"; str "plastic-bar"] r)
  (Some [str "iron-gear-wheel"])
  (fun r => match r with VStr s => if one_of [str "iron-gear-wheel"] s then Some [str "iron-plate"] else None | _ => None end)
  (fun i => if pystr_eqb i (str "productivity-module") then Some [str "plastic-bar"] else None)
  (fun s => pystr_eqb s (str "steam")) (fun _ => (15 # 1, 1000 # 1)%Q)
  false (fun _ => false).

Lemma toy_well_behaved : well_behaved toy.
Proof.
  split; cbn [coerce toy].
  - intros s t v w H. destruct (typedb t v) eqn:T; [|discriminate]. injection H as <-. apply typedb_iff, T.
  - intros s t v H. apply typedb_iff in H. rewrite H. reflexivity.
  - intros s v w H. destruct (typedb TItems v); [|discriminate]. congruence.
Qed.

(** A new object: nothing set, an item requested. *)
Definition fresh : obj := fun a =>
  match a with
  | Items => VItems [str "iron-plate"]
  | Facing => VInt 0
  | Volume => VFloat (Fin 1)
  | LinkId => VInt 0
  | _ => VNone
  end.
Lemma fresh_typed : typed_fluid fresh.
Proof. split; left; reflexivity. Qed.
Definition quiet : warn -> bool := fun _ => false.
Definition loud : warn -> bool := fun _ => true.

Lemma hasty_example : error (assign toy quiet Recipe MStrict fresh (VInt 5)) = Some DataFormat /\
  after (assign toy quiet Recipe MStrict fresh (VInt 5)) Recipe = VInt 5.
Proof. split; reflexivity. Qed.
Lemma temperature_example : error (assign toy quiet FluidTemperature MStrict fresh (VInt 50)) = Some DataFormat /\
  after (assign toy quiet FluidTemperature MStrict fresh (VInt 50)) FluidTemperature = VInt 50.
Proof. split; reflexivity. Qed.
Lemma loud_example : error (assign toy loud Facing MStrict fresh (VInt 5)) = Some (Escalated (WDirection (VInt 4))) /\
  after (assign toy loud Facing MStrict fresh (VInt 5)) Facing = VInt 4.
Proof. split; reflexivity. Qed.
