(** Proofs about filtered searches. *)
From Coq Require Import ZArith List Bool Lia Permutation.
From Verif Require Import Common Spatial_Model Spatial_Spec Spatial_Proofs Search_Model Search_Spec.
Import ListNotations.
Local Open Scope Z_scope.

Section Selected.
  Context {A : Type}.
  Lemma selected_filter : forall (P : A -> Prop) f l, (forall x, f x = true <-> P x) -> selected P l (filter f l).
  Proof.
    intros P f l F. induction l as [|x l IH]; simpl; [constructor|]. destruct (f x) eqn:E.
    - apply sel_keep; [apply F; assumption|assumption].
    - apply sel_drop; [|assumption]. intros p. apply F in p. congruence.
  Qed.
  Lemma selected_in : forall (P : A -> Prop) l r x, selected P l r -> (In x r <-> In x l /\ P x).
  Proof.
    intros P l r x S. induction S as [|y l r p S IH|y l r p S IH]; simpl.
    - tauto.
    - rewrite IH. split; [intros [E|[I Q]]; [subst; tauto|tauto]|tauto].
    - rewrite IH. split; [tauto|]. intros [[E|I] Q]; [subst; tauto|tauto].
  Qed.
  Lemma selected_twice : forall (P Q : A -> Prop) l r s, selected P l r -> selected Q r s -> selected (fun x => P x /\ Q x) l s.
  Proof.
    intros P Q l r s S. revert s. induction S as [|y l r p S IH|y l r p S IH]; intros s T.
    - inversion T. constructor.
    - inversion T as [|y' l' r' q T'|y' l' r' q T']; subst.
      + apply sel_keep; auto.
      + apply sel_drop; [tauto|auto].
    - apply sel_drop; [tauto|auto].
  Qed.
  Lemma selected_ext : forall (P Q : A -> Prop) l r, (forall x, P x <-> Q x) -> selected P l r -> selected Q l r.
  Proof. intros P Q l r E S. induction S; [constructor|apply sel_keep|apply sel_drop]; rewrite <- ?E; auto. Qed.
  Lemma selected_nodup : forall (P : A -> Prop) l r, selected P l r -> NoDup l -> NoDup r.
  Proof.
    intros P l r S. induction S as [|y l r p S IH|y l r p S IH]; intros N; [assumption| |]; apply NoDup_cons_iff in N; destruct N as [N1 N2].
    - constructor; [|auto]. intros I. apply (selected_in _ _ _ _ S) in I. tauto.
    - auto.
  Qed.
  Lemma selected_fun : forall (P : A -> Prop) l r s, selected P l r -> selected P l s -> r = s.
  Proof.
    intros P l r s S. revert s. induction S as [|y l r p S IH|y l r p S IH]; intros s T; inversion T; subst; try contradiction.
    - reflexivity.
    - f_equal. auto.
    - auto.
  Qed.
  Lemma selected_split : forall (P : A -> Prop) l r s, selected P l r -> selected (fun x => ~ P x) l s -> Permutation (r ++ s) l.
  Proof.
    intros P l r s S. revert s. induction S as [|y l r p S IH|y l r p S IH]; intros s T; inversion T; subst; try contradiction.
    - constructor.
    - simpl. constructor. auto.
    - etransitivity; [symmetry; apply Permutation_middle|]. constructor. auto.
  Qed.
  Lemma slice_all : forall (l : list A) n, Z.of_nat (length l) <= n -> slice_to l n = l.
  Proof. intros l n H. unfold slice_to. destruct (Z.ltb_spec n 0); [lia|]. apply firstn_all2. lia. Qed.
  Lemma filter_len : forall (f : A -> bool) l, (length (filter f l) <= length l)%nat.
  Proof. intros f l. induction l as [|x l IH]; simpl; [lia|]. destruct (f x); simpl; lia. Qed.
  Lemma pick_all : forall inv (t : A -> bool) l, pick inv None t l = filter (fun x => if inv then negb (t x) else t x) l.
  Proof. intros. unfold pick. apply slice_all. pose proof (filter_len (fun x => if inv then negb (t x) else t x) l). lia. Qed.
  Lemma pick_limit : forall inv n (t : A -> bool) l, 0 <= n -> pick inv (Some n) t l = firstn (Z.to_nat n) (pick inv None t l).
  Proof.
    intros inv n t l H. rewrite pick_all. unfold pick, slice_to. destruct (Z.ltb_spec n 0); [lia|]. reflexivity.
  Qed.
  Lemma pick_negative : forall inv n (t : A -> bool) l, n < 0 ->
    pick inv (Some n) t l = firstn (length (pick inv None t l) - Z.to_nat (- n)) (pick inv None t l).
  Proof.
    intros inv n t l H. rewrite pick_all. unfold pick, slice_to. destruct (Z.ltb_spec n 0); [|lia]. f_equal. lia.
  Qed.
End Selected.

Section Search.
  Context {item : Type}.
  Variable cs eps : Z.
  Variable box : item -> option zbox.
  Variable pos : item -> zpt.
  Variable ieq : item -> item -> bool.
  Variable name : item -> pystr.
  Variable kind : item -> pystr.
  Variable direction : item -> option Z.
  Local Notation meets := (meets name kind direction).
  Local Notation test := (test name kind direction).

  Lemma existsb_str : forall x l, existsb (pystr_eqb x) l = true <-> In x l.
  Proof using.
    intros x l. rewrite existsb_exists. split.
    - intros (y & I & E). apply pystr_eqb_eq in E. subst. assumption.
    - intros I. exists x. split; [assumption|]. apply pystr_eqb_eq. reflexivity.
  Qed.
  Lemma existsb_Z : forall x l, existsb (Z.eqb x) l = true <-> In x l.
  Proof using.
    intros x l. rewrite existsb_exists. split.
    - intros (y & I & E). apply Z.eqb_eq in E. subst. assumption.
    - intros I. exists x. split; [assumption|]. apply Z.eqb_eq. reflexivity.
  Qed.
  Lemma allows_str : forall (w : wanted pystr) x,
    match normalized w with None => false | Some l => negb (existsb (pystr_eqb x) l) end = false <-> allows w (Some x).
  Proof using.
    intros [|a|l] x; simpl.
    - tauto.
    - rewrite orb_false_r, negb_false_iff, pystr_eqb_eq. split; [intros ->; reflexivity|intros E; injection E; auto].
    - rewrite negb_false_iff, existsb_str. split; [intros I; exists x; auto|]. intros (b & E & I). injection E as ->. assumption.
  Qed.
  Lemma allows_dir : forall (w : wanted Z) x,
    match normalized w with None => false | Some l => negb (match x with None => false | Some d => existsb (Z.eqb d) l end) end = false <-> allows w x.
  Proof using.
    intros [|a|l] [x|]; simpl; try tauto; try (split; [discriminate|]); try discriminate.
    - rewrite orb_false_r, negb_false_iff, Z.eqb_eq. split; [intros ->; reflexivity|intros E; injection E; auto].
    - rewrite negb_false_iff, existsb_Z. split; [intros I; exists x; auto|]. intros (b & E & I). injection E as ->. assumption.
    - intros (b & E & _). discriminate.
  Qed.
  Lemma test_meets : forall c it, test c it = true <-> meets c it.
  Proof using name kind direction.
    intros c it. unfold Search_Model.test, Search_Spec.meets.
    rewrite <- !allows_str, <- allows_dir.
    destruct (match normalized (names c) with None => _ | _ => _ end); [split; [discriminate|intros (H & _); discriminate]|].
    destruct (match normalized (types c) with None => _ | _ => _ end); [split; [discriminate|intros (_ & H & _); discriminate]|].
    destruct (match normalized (directions c) with None => _ | _ => _ end); [split; [discriminate|intros (_ & _ & H); discriminate]|].
    split; [intros _; repeat split|reflexivity].
  Qed.

  Lemma pick_selected : forall inv c l, selected (wants name kind direction inv c) l (pick inv None (test c) l).
  Proof using name kind direction.
    intros inv c l. rewrite pick_all. apply selected_filter. intros x. unfold wants. destruct inv.
    - rewrite negb_true_iff, <- test_meets. destruct (test c x); split; congruence.
    - apply test_meets.
  Qed.


  Lemma point_selected : 0 < cs -> 0 < eps -> (forall a b, ieq a b = true -> box a = box b) -> forall ops p,
    selected (found_at cs eps box p) (bag ieq ops) (get_on_point cs box (run_map cs eps box ieq ops) p None).
  Proof using cs eps box ieq.
    intros Hc He Hb ops p. rewrite (get_on_point_list cs eps box ieq Hc Hb). cbn [limited].
    apply selected_filter. intros it. rewrite andb_true_iff, pin_spec, (coversb_spec cs eps box Hc). unfold item_touches, found_at. split.
    - intros [[b [E1 E2]] [b' [E3 E4]]]. exists b. rewrite E1 in E3. inversion E3; subst.
      rewrite covers_at in E4 by assumption. auto.
    - intros [b [E1 [E2 E3]]]. split; [eauto|]. exists b. split; [assumption|]. apply covers_at; auto.
  Qed.
  Lemma pick_in_limit : forall inv lim (t : item -> bool) l x, In x (pick inv lim t l) -> In x (pick inv None t l).
  Proof using.
    intros inv lim t l x H. rewrite pick_all. unfold pick, slice_to in H.
    destruct lim; eapply (limited_in (Some _)); exact H.
  Qed.
  Lemma pick_sound : forall inv lim c l x, In x (pick inv lim (test c) l) -> In x l /\ wants name kind direction inv c x.
  Proof using name kind direction. intros inv lim c l x H. apply pick_in_limit in H. exact (proj1 (selected_in _ _ _ x (pick_selected inv c l)) H). Qed.
  Lemma pick_complete : forall inv c l x, In x l -> wants name kind direction inv c x -> In x (pick inv None (test c) l).
  Proof using name kind direction. intros inv c l x I W. exact (proj2 (selected_in _ _ _ x (pick_selected inv c l)) (conj I W)). Qed.
  Lemma wants_eq : forall a b inv c, name a = name b -> kind a = kind b -> direction a = direction b ->
    wants name kind direction inv c b -> wants name kind direction inv c a.
  Proof using name kind direction. intros a b inv c N K D. unfold wants, Search_Spec.meets. rewrite N, K, D. auto. Qed.
  Lemma fop_filter : forall (R : item -> item -> Prop) f l, ForallOrdPairs R l -> ForallOrdPairs R (filter f l).
  Proof using.
    intros R f l H. induction H as [|x l H1 H2 IH]; simpl; [constructor|]. destruct (f x); [|assumption].
    constructor; [|assumption]. rewrite Forall_forall in *. intros y I. apply filter_In in I. apply H1. exact (proj1 I).
  Qed.
  Lemma pick_distinct : forall inv lim (t : item -> bool) l, ForallOrdPairs (fun a b => ieq a b = false) l ->
    ForallOrdPairs (fun a b => ieq a b = false) (pick inv lim t l).
  Proof using ieq. intros inv lim t l H. unfold pick, slice_to. destruct lim; apply fop_firstn, fop_filter; assumption. Qed.

  Lemma tile_found : forall u t p b, 0 < u -> 0 < 2 * eps < u -> Z.even u = true ->
    b = mkZ (u * fst t) (u * snd t) (u * (fst t + 1)) (u * (snd t + 1)) ->
    (in_zbox (u / 2 + u * fst p, u / 2 + u * snd p) b /\ ~ seam cs eps (u / 2 + u * fst p, u / 2 + u * snd p) b <-> t = p).
  Proof using cs eps.
    intros u [tx ty] [px py] b U E V ->. unfold in_zbox, seam. cbn [fst snd bl bt br bb].
    apply Z.even_spec in V. destruct V as [k V]. rewrite V. replace (2 * k) with (k * 2) by lia. rewrite Z.div_mul by lia. split.
    - intros [[X Y] _]. f_equal; nia.
    - intros T. injection T as -> ->. split; [nia|]. intros (j & [H|H]); nia.
  Qed.
End Search.

Lemma hd_selected : forall {A} (P : A -> Prop) l r, selected P l r ->
  match hd_error r with
  | Some x => exists l1 l2, l = l1 ++ x :: l2 /\ P x /\ forall y, In y l1 -> ~ P y
  | None => forall y, In y l -> ~ P y
  end.
Proof.
  intros A P l r S. induction S as [|y l r p S IH|y l r p S IH]; cbn [hd_error].
  - intros y [].
  - exists [], l. split; [reflexivity|]. split; [assumption|]. intros z [].
  - destruct (hd_error r) as [x|].
    + destruct IH as (l1 & l2 & E & Px & N). exists (y :: l1), l2. rewrite E. repeat split; auto.
      intros z [<-|I]; auto.
    + intros z [<-|I]; auto.
Qed.

Section Results.
  Context {item : Type}.
  Variable cs eps : Z.
  Variable box : item -> option zbox.
  Variable pos : item -> zpt.
  Variable ieq : item -> item -> bool.
  Variable name : item -> pystr.
  Variable kind : item -> pystr.
  Variable direction : item -> option Z.
  Hypothesis Hcs : 0 < cs.
  Hypothesis Heps : 0 < eps.
  Hypothesis ieq_refl : forall a, ieq a a = true.
  Hypothesis ieq_box : forall a b, ieq a b = true -> box a = box b.
  Hypothesis ieq_name : forall a b, ieq a b = true -> name a = name b /\ kind a = kind b /\ direction a = direction b.
  Local Notation search := (find_entities_filtered cs eps box pos ieq name kind direction).
  Local Notation wants := (wants name kind direction).

  Lemma search_limit : forall m flat position radius area c inv n, 0 <= n ->
    search m flat position radius area c inv (Some n) = firstn (Z.to_nat n) (search m flat position radius area c inv None).
  Proof using. intros. unfold find_entities_filtered. apply pick_limit. assumption. Qed.

  Lemma search_negative : forall m flat position radius area c inv n, n < 0 ->
    let all := search m flat position radius area c inv None in
    search m flat position radius area c inv (Some n) = firstn (length all - Z.to_nat (- n)) all.
  Proof using. intros. unfold all, find_entities_filtered. apply pick_negative. assumption. Qed.
  Lemma entities_all : forall m members area,
    find_entities cs eps box ieq m members area =
    search m members None None area (mkCriteria Absent Absent Absent) false None.
  Proof using.
    intros. unfold find_entities_filtered. rewrite pick_all.
    assert (E : forall l, filter (fun x => if false then negb (Search_Model.test name kind direction (mkCriteria Absent Absent Absent) x) else Search_Model.test name kind direction (mkCriteria Absent Absent Absent) x) l = l).
    { induction l as [|x l IH]; [reflexivity|]. cbn [filter]. rewrite IH. reflexivity. }
    rewrite E. unfold find_entities, entity_region. destruct area as [[q off]|]; reflexivity.
  Qed.

  Lemma search_invert : forall m flat position radius area c,
    Permutation (search m flat position radius area c false None ++ search m flat position radius area c true None)
                (entity_region cs eps box pos ieq m flat position radius area).
  Proof using.
    intros. unfold find_entities_filtered.
    exact (selected_split _ _ _ _ (pick_selected name kind direction false c _) (pick_selected name kind direction true c _)).
  Qed.

  Lemma search_whole : forall m flat radius c inv, selected (wants inv c) flat (search m flat None radius None c inv None).
  Proof using. intros. unfold find_entities_filtered. cbn [entity_region]. apply pick_selected. Qed.

  Lemma search_point : forall ops flat p area c inv,
    selected (fun it => found_at cs eps box p it /\ wants inv c it) (bag ieq ops)
      (search (run_map cs eps box ieq ops) flat (Some p) None area c inv None).
  Proof using Hcs Heps ieq_box.
    intros. unfold find_entities_filtered. cbn [entity_region].
    eapply selected_twice; [apply (point_selected cs eps box ieq); assumption|apply pick_selected].
  Qed.

  Lemma search_area : forall ops flat radius q off c inv lim,
    (forall it, In it (search (run_map cs eps box ieq ops) flat None radius (Some (q, off)) c inv lim) ->
       In it (bag ieq ops) /\ (exists b, box it = Some b /\ boxes_meet b (shift_box q off)) /\ wants inv c it) /\
    ForallOrdPairs (fun a b => ieq a b = false) (search (run_map cs eps box ieq ops) flat None radius (Some (q, off)) c inv lim).
  Proof using Hcs ieq_box.
    intros. unfold find_entities_filtered. cbn [entity_region]. split.
    - intros it H. apply pick_sound in H. destruct H as [H W]. apply get_in_aabb_sound in H; [tauto|assumption|assumption].
    - apply pick_distinct, collect_distinct.
  Qed.

  Lemma search_area_complete : forall ops flat radius q c inv it b,
    In it (bag ieq ops) -> box it = Some b ->
    bl b <= br b - eps -> bt b <= bb b - eps -> bl q <= br q - eps -> bt q <= bb q - eps ->
    bl b <= br q - eps -> bl q <= br b - eps -> bt b <= bb q - eps -> bt q <= bb b - eps ->
    wants inv c it ->
    exists it', In it' (search (run_map cs eps box ieq ops) flat None radius (Some (q, (0, 0))) c inv None) /\ ieq it' it = true.
  Proof using Hcs Heps ieq_refl ieq_box ieq_name.
    intros ops flat radius q c inv it b I B H1 H2 H3 H4 H5 H6 H7 H8 W.
    destruct (get_in_aabb_complete cs eps box ieq Hcs Heps ieq_refl ieq_box ops q it b I B) as (y & Y1 & Y2); try assumption.
    exists y. split; [|assumption]. apply pick_complete; [exact Y1|].
    destruct (ieq_name _ _ Y2) as (N & K & D). eapply wants_eq; eassumption.
  Qed.

  Lemma search_radius : forall ops flat r p area c inv lim,
    (forall it, In it (search (run_map cs eps box ieq ops) flat (Some p) (Some r) area c inv lim) ->
       In it (bag ieq ops) /\ within (pos it) r p /\ wants inv c it) /\
    ForallOrdPairs (fun a b => ieq a b = false) (search (run_map cs eps box ieq ops) flat (Some p) (Some r) area c inv lim).
  Proof using Hcs ieq_box.
    intros. unfold find_entities_filtered. cbn [entity_region]. split.
    - intros it H. apply pick_sound in H. destruct H as [H W]. apply (get_in_radius_sound cs eps box ieq Hcs ieq_box) in H. tauto.
    - apply pick_distinct, collect_distinct.
  Qed.

  Lemma search_radius_complete : forall ops flat r p area c inv it b, 0 <= r ->
    In it (bag ieq ops) -> within (pos it) r p ->
    box it = Some b -> bl b <= fst (pos it) <= br b - eps -> bt b <= snd (pos it) <= bb b - eps ->
    wants inv c it ->
    exists it', In it' (search (run_map cs eps box ieq ops) flat (Some p) (Some r) area c inv None) /\ ieq it' it = true.
  Proof using Hcs Heps ieq_refl ieq_box ieq_name.
    intros ops flat r p area c inv it b R I Wi B X Y W.
    destruct (get_in_radius_complete cs eps box ieq Hcs ieq_refl ieq_box pos ops r p it R I Wi) as (y & Y1 & Y2).
    { exists b. split; [assumption|]. apply touches_pos; tauto. }
    exists y. split; [|assumption]. apply pick_complete; [exact Y1|].
    destruct (ieq_name _ _ Y2) as (N & K & D). eapply wants_eq; eassumption.
  Qed.

  Lemma entity_found : forall ops n p,
    match find_entity cs box name (run_map cs eps box ieq ops) n p with
    | Some it => exists l1 l2, bag ieq ops = l1 ++ it :: l2 /\ (found_at cs eps box p it /\ name it = n) /\
                               forall y, In y l1 -> ~ (found_at cs eps box p y /\ name y = n)
    | None => forall y, In y (bag ieq ops) -> ~ (found_at cs eps box p y /\ name y = n)
    end.
  Proof using Hcs Heps ieq_box.
    intros ops n p. apply (hd_selected (fun y => found_at cs eps box p y /\ name y = n)).
    eapply selected_twice; [apply (point_selected cs eps box ieq); assumption|].
    apply selected_filter. intros x. apply pystr_eqb_eq.
  Qed.
  Lemma entity_found_at : forall ops p,
    match find_entity_at_position cs box (run_map cs eps box ieq ops) p with
    | Some it => exists l1 l2, bag ieq ops = l1 ++ it :: l2 /\ found_at cs eps box p it /\
                               forall y, In y l1 -> ~ found_at cs eps box p y
    | None => forall y, In y (bag ieq ops) -> ~ found_at cs eps box p y
    end.
  Proof using Hcs Heps ieq_box. intros ops p. apply hd_selected. apply point_selected; assumption. Qed.

  Lemma tiles_found : forall u (at_ : item -> zpt) ops p, 0 < u -> Z.even u = true -> 2 * eps < u ->
    (forall it, box it = Some (mkZ (u * fst (at_ it)) (u * snd (at_ it)) (u * (fst (at_ it) + 1)) (u * (snd (at_ it) + 1)))) ->
    selected (fun it => at_ it = p) (bag ieq ops) (find_tile cs box u (run_map cs eps box ieq ops) (u * fst p, u * snd p)).
  Proof using Hcs Heps ieq_box.
    intros u at_ ops p U V E B. unfold find_tile. cbn [fst snd].
    eapply selected_ext; [|apply (point_selected cs eps box ieq); assumption].
    intros it. unfold found_at. split.
    - intros (b & Hb & H). rewrite B in Hb. injection Hb as Hb.
      exact (proj1 (tile_found cs eps u (at_ it) p b U ltac:(lia) V (eq_sym Hb)) H).
    - intros T. exists (mkZ (u * fst (at_ it)) (u * snd (at_ it)) (u * (fst (at_ it) + 1)) (u * (snd (at_ it) + 1))).
      split; [apply B|]. exact (proj2 (tile_found cs eps u (at_ it) p _ U ltac:(lia) V eq_refl) T).
  Qed.

  (** Tiles: as for entities, except that a position without a radius is ignored. *)
  Lemma tiles_as_entities : forall m tiles position radius area n inv lim,
    find_tiles_filtered cs eps box pos ieq name kind direction m tiles position radius area n inv lim =
    search m tiles (if match radius with None => true | Some _ => false end then None else position) radius area (mkCriteria n Absent Absent) inv lim.
  Proof using. intros m tiles [p|] [r|] [[q off]|] n inv lim; reflexivity. Qed.
End Results.
