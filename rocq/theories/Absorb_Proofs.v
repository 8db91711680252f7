(** Proofs about adding with merging (C65). *)
From Coq Require Import ZArith QArith String List Bool Lia Permutation.
From Verif Require Import Common Dict Trim_Model Trim_Proofs Wires_Model Merge_Model Merge_Classes Merge_Spec Merge_Proofs
  Absorb_Model Absorb_Spec.
From Verif Require TileList_Proofs.
Import ListNotations.
Local Open Scope list_scope.

(** ** Being in the same place *)
Lemma agree_trans a b c f : agree a b f -> agree b c f -> agree a c f.
Proof.
  intros (u & v & G & G' & P) (v' & w & K & K' & Q). rewrite G' in K. injection K as <-.
  exists u, w. split; [exact G|]. split; [exact K'|]. exact (py_eq_trans _ _ _ P Q).
Qed.
Lemma name_field k : In k classes -> In (str "name") (fields_of k).
Proof. intro K. facts k K. now apply mem_iff. Qed.
Lemma place_sym e o : sound e -> sound o -> same_place e o -> same_place o e.
Proof.
  intros A B (P1 & P2 & P3 & P4 & P5 & P6). split; [now symmetry|].
  split; [apply agree_sym; try assumption; apply name_field, A|].
  split; [now symmetry|]. split; [now symmetry|]. split; [now symmetry|].
  rewrite <- P1. intros f I J. apply agree_sym; auto.
Qed.
Lemma place_trans a b c : same_place a b -> same_place b c -> same_place a c.
Proof.
  intros (P1 & P2 & P3 & P4 & P5 & P6) (Q1 & Q2 & Q3 & Q4 & Q5 & Q6).
  split; [congruence|]. split; [eapply agree_trans; eassumption|].
  split; [now rewrite P3|]. split; [now rewrite P4|]. split; [congruence|].
  intros f I J. eapply agree_trans; [exact (P6 f I J)|]. rewrite P1 in J. exact (Q6 f I J).
Qed.
Lemma place_refl e : sound e -> same_place e e.
Proof.
  intro S. repeat split; try reflexivity.
  - apply sound_agree; [exact S|]. apply name_field, S.
  - intros f _ I. now apply sound_agree.
Qed.
Lemma framed_agree k e e' o f : framed k e e' -> stays k f = true -> agree e o f -> agree e' o f.
Proof.
  intros (_ & _ & _ & _ & F) S (v & w & G & G' & P). exists v, w. rewrite F by now right. auto.
Qed.
Lemma framed_sym k e e' : framed k e e' -> framed k e' e.
Proof.
  intros (A & B & C & D & E). unfold framed. repeat (split; [now symmetry|]). intros f H. symmetry. exact (E f H).
Qed.
Lemma framed_place k e e' o : framed k e e' -> same_place e o -> same_place e' o.
Proof.
  intros F (P1 & P2 & P3 & P4 & P5 & P6). pose proof F as (A & B & C & _ & _). unfold same_place. rewrite A, B, C.
  split; [exact P1|]. split; [apply (framed_agree k e); [exact F|reflexivity|exact P2]|].
  split; [exact P3|]. split; [exact P4|]. split; [exact P5|].
  intros f I J. apply (framed_agree k e); [exact F| |exact (P6 f I J)]. destruct I as [<-|[<-|[]]]; reflexivity.
Qed.
Lemma framed_place_r k e o o' : framed k o o' -> same_place e o -> same_place e o'.
Proof.
  intros F (P1 & P2 & P3 & P4 & P5 & P6). pose proof F as (A & B & C & _ & G). unfold same_place. rewrite A, B, C.
  assert (H : forall f, stays k f = true -> agree e o f -> agree e o' f).
  { intros f S (v & w & X & Y & P). exists v, w. rewrite G by now right. auto. }
  split; [exact P1|]. split; [apply H; [reflexivity|exact P2]|].
  split; [exact P3|]. split; [exact P4|]. split; [exact P5|].
  intros f I J. apply H; [|exact (P6 f I J)]. destruct I as [<-|[<-|[]]]; reflexivity.
Qed.

(** ** Items *)
Section Item_ind.
  Variable P : item -> Prop.
  Hypothesis HO : forall o, P (One o).
  Hypothesis HM : forall gid ws l, Forall P l -> P (Many gid ws l).
  Fixpoint item_ind' (i : item) : P i :=
    match i with
    | One o => HO o
    | Many gid ws l =>
        HM gid ws l ((fix each (l : list item) : Forall P l :=
          match l with [] => Forall_nil P | j :: l' => Forall_cons j (item_ind' j) (each l') end) l)
    end.
End Item_ind.
Lemma tidy_many h gid ws l : tidy h (Many gid ws l) <->
  associated ws /\
  (forall w o, In w ws -> In (WRef (Some o)) (ends w) -> In o (own l) -> wired (e_class (h o))) /\
  Forall (tidy h) l.
Proof.
  cbn [tidy]. assert (E : (fix each (l : list item) : Prop := match l with [] => True | j :: l' => tidy h j /\ each l' end) l <-> Forall (tidy h) l).
  { induction l as [|j l IH]; [split; constructor|]. rewrite Forall_cons_iff, <- IH. reflexivity. }
  now rewrite E.
Qed.
Lemma own_leaves l o : In o (own l) -> In o (all_leaves l).
Proof.
  unfold own, all_leaves. rewrite !in_flat_map. intros (i & I & J). exists i. split; [exact I|].
  destruct i; [exact J|destruct J].
Qed.

(** [radd] with its inner loop named. *)
Definition handle check near m := fix go (l : list item) (h : heap) (grid : list nat) (gws : list wire) {struct l} : result handled :=
  match l with
  | [] => Ok (mkHandled h grid gws [] [])
  | j :: l' =>
      let* p := radd check near m j h grid (Some gws) in
      let* d := go l' (p_heap p) (p_grid p) (match p_wires p with Some w => w | None => gws end) in
      Ok (mkHandled (d_heap d) (d_grid d) (d_wires d)
            (match p_item p with Some j' => j' | None => j end :: d_items d)
            (match p_item p, j with None, One o => o :: d_merged d | _, _ => d_merged d end))
  end.
Lemma radd_many check near m gid gws items h grid ws :
  radd check near m (Many gid gws items) h grid ws =
  (let* d := handle check near m items h grid gws in
   let* items' := remove_all (d_heap d) (d_merged d) (d_items d) in
   Ok (mkPlaced (d_heap d) (d_grid d) ws (Some (Many gid (d_wires d) items')))).
Proof. reflexivity. Qed.
Lemma radd_one check near m o h grid ws :
  radd check near m (One o) h grid ws =
  (let* a := add check near m h grid ws o in
   Ok (mkPlaced (a_heap a) (a_grid a) (a_wires a) (if a_new a then Some (One o) else None))).
Proof. reflexivity. Qed.

(** ** The heart of it *)
Section Main.
  Variable check : pystr -> bool -> pystr -> val -> result val.
  Variable near : list nat -> nat -> list nat.
  Variable h0 : heap.
  Variables G0 L : list nat.
  Variable into : nat -> option nat.
  Hypothesis AG : apart h0 G0.
  Hypothesis SG : forall x, In x G0 -> sound (h0 x).
  Hypothesis NL : NoDup L.
  Hypothesis DL : forall o, In o L -> ~ In o G0.
  Hypothesis AL : apart h0 L.
  Hypothesis SL : forall o, In o L -> sound (h0 o).
  Hypothesis CL : forall o, In o L -> controlled (h0 o).
  Hypothesis VL : forall o, In o L -> forall b, accepted check b (h0 o).
  Hypothesis RN : reports near h0 (G0 ++ L).
  Hypothesis IN : forall o, In o L -> forall x, into o = Some x <-> In x G0 /\ same_place (h0 x) (h0 o).

  Definition stayed (o : nat) : bool := match into o with None => true | Some _ => false end.
  Definition left (o : nat) : bool := match into o with None => false | Some _ => true end.
  Definition grid_of (done : list nat) : list nat := G0 ++ filter stayed done.

  Definition inv (h : heap) (done : list nat) : Prop :=
    (forall x, framed (e_class (h0 x)) (h0 x) (h x)) /\
    (forall x, (forall o, In o done -> into o <> Some x) -> h x = h0 x) /\
    (forall o x, In o done -> into o = Some x -> took_over (h0 x) (h0 o) (h x) /\ sound (h x)).

  Lemma grid_in done : incl done L -> incl (grid_of done) (G0 ++ L).
  Proof.
    intros D x I. unfold grid_of in I. apply in_or_app. apply in_app_or in I as [I|I]; [now left|].
    apply filter_In in I as [I _]. right. exact (D x I).
  Qed.
  Lemma grid_apart done : incl done L -> apart h0 (grid_of done).
  Proof.
    intros D x y I J P. unfold grid_of in *.
    assert (X : forall z, In z (filter stayed done) -> In z L /\ into z = None).
    { intros z K. apply filter_In in K as [K1 K2]. split; [exact (D z K1)|]. unfold stayed in K2. now destruct (into z). }
    apply in_app_or in I as [I|I]; apply in_app_or in J as [J|J].
    - now apply AG.
    - destruct (X y J) as [Y N]. assert (into y = Some x) by (apply IN; auto). congruence.
    - destruct (X x I) as [Y N]. assert (into x = Some y).
      { apply IN; [exact Y|]. split; [exact J|]. apply place_sym; auto. }
      congruence.
    - apply AL; [apply (X x I)|apply (X y J)|exact P].
  Qed.
  Lemma target o x : In o L -> into o = Some x -> In x G0 /\ same_place (h0 x) (h0 o).
  Proof. intros I E. exact (proj1 (IN o I x) E). Qed.
  Lemma fresh_same h done o : incl done L -> inv h done -> In o L -> h o = h0 o.
  Proof.
    intros D (_ & F & _) I. apply F. intros o' J E. apply (DL o I). apply (target o' o); [exact (D o' J)|exact E].
  Qed.
  Lemma into_unique o o' x : In o L -> In o' L -> into o = Some x -> into o' = Some x -> o = o'.
  Proof.
    intros I J E F. destruct (target o x I E) as [K P]. destruct (target o' x J F) as [_ Q].
    apply AL; [exact I|exact J|]. eapply place_trans; [|exact Q]. apply place_sym; [exact (SG x K)|exact (SL o I)|exact P].
  Qed.

  Lemma first_found h done o l :
    incl done L -> inv h done -> In o L -> ~ In o done -> incl l (grid_of done) ->
    (forall x, into o = Some x -> In x l) ->
    first_mergable h o l = Ok (into o).
  Proof.
    intros D V I N LI C.
    assert (Q : forall x, In x l -> exists b, mergable methods_table bases_table (h x) (h o) = Ok b /\
              (b = true <-> into o = Some x)).
    { intros x J. pose proof (LI x J) as K.
      rewrite (fresh_same h done o D V I). destruct V as (F & F0 & F1).
      assert (SX : sound (h0 x) /\ sound (h x)).
      { unfold grid_of in K. apply in_app_or in K as [K|K].
        - split; [exact (SG x K)|].
          destruct (in_dec Nat.eq_dec x (map (fun o => match into o with Some y => y | None => o end) done)) as [M|M].
          + apply in_map_iff in M as (o' & E & M). destruct (into o') as [y|] eqn:EI.
            * subst y. exact (proj2 (F1 o' x M EI)).
            * subst o'. exfalso. exact (DL x (D x M) K).
          + rewrite F0; [exact (SG x K)|]. intros o' M' E. apply M. apply in_map_iff. exists o'. rewrite E. auto.
        - apply filter_In in K as [K _]. split; [exact (SL x (D x K))|].
          rewrite F0; [exact (SL x (D x K))|]. intros o' M E. apply (DL x (D x K)). exact (proj1 (target o' x (D o' M) E)). }
      destruct SX as [S0 SX].
      destruct (mergable_spec (h x) (h0 o) SX (SL o I)) as (b & B & E). exists b. split; [exact B|]. rewrite E.
      split.
      - intro P. apply (framed_place _ _ _ _ (framed_sym _ _ _ (F x))) in P.
        apply IN; [exact I|]. unfold grid_of in K. apply in_app_or in K as [K|K]; [now split|].
        apply filter_In in K as [K _]. exfalso. apply N. rewrite <- (AL x o (D x K) I P). exact K.
      - intro E'. destruct (target o x I E') as [_ P]. exact (framed_place _ _ _ _ (F x) P). }
    clear LI. induction l as [|x l IH].
    - cbn. destruct (into o) as [x|]; [|reflexivity]. destruct (C x eq_refl).
    - cbn [first_mergable]. destruct (Q x (or_introl eq_refl)) as (b & B & E). rewrite B. cbn [bind].
      destruct b; [now rewrite (proj1 E eq_refl)|].
      apply IH.
      + intros y Ey. destruct (C y Ey) as [->|J]; [|exact J]. assert (false = true) by (now apply E). discriminate.
      + intros y J. apply Q. now right.
  Qed.

  Definition wires_moved (o : nat) (ws : option (list wire)) : option (list wire) :=
    match into o with
    | Some x => if is_wired (e_class (h0 o)) then option_map (map (moved x o)) ws else ws
    | None => ws
    end.
  Lemma filter_snoc {A} (f : A -> bool) l x : filter f (l ++ [x]) = filter f l ++ (if f x then [x] else []).
  Proof. rewrite filter_app. cbn. now destruct (f x). Qed.

  Lemma add_one h done o ws :
    incl done L -> inv h done -> In o L -> ~ In o done -> (forall w, ws = Some w -> associated w) ->
    exists h', add check near true h (grid_of done) ws o =
      Ok (mkAdded h' (grid_of (done ++ [o])) (wires_moved o ws) (stayed o)) /\ inv h' (done ++ [o]).
  Proof.
    intros D V I N AW. destruct (RN (grid_of done) o) as [R1 R2]; [now apply grid_in|apply in_or_app; now right|].
    unfold add. cbn [bind].
    rewrite (first_found h done o _ D V I N R1).
    2:{ intros x E. destruct (target o x I E) as [K P]. apply R2; [now apply grid_apart| |exact P].
        unfold grid_of. apply in_or_app. now left. }
    cbn [bind]. unfold wires_moved, grid_of. rewrite filter_snoc.
    assert (ST : stayed o = match into o with None => true | Some _ => false end) by reflexivity. rewrite ST.
    destruct (into o) as [x|] eqn:E.
    - destruct (target o x I E) as [K P]. rewrite (fresh_same h done o D V I).
      destruct V as (F & F0 & F1).
      assert (HX : h x = h0 x).
      { apply F0. intros o' J E'. apply N. now rewrite (into_unique o o' x I (D o' J) E E'). }
      rewrite HX. assert (NE : x <> o) by (intros ->; exact (DL o I K)).
      destruct (merge_spec check x o (h0 x) (h0 o) ws NE (SG x K) (SL o I) (CL o I) (proj1 P) (VL o I _) AW) as
        (e' & ws' & M & E1 & E2 & E3 & E4 & E5 & E6 & E7 & E8).
      destruct (merged_equal check x o (h0 x) (h0 o) ws NE (SG x K) (SL o I) (CL o I) P (VL o I _) AW) as
        (e1 & ws1 & M1 & Q & _). rewrite M in M1. injection M1 as <- <-.
      destruct (merged_sound check x o (h0 x) (h0 o) ws NE (SG x K) (SL o I) (CL o I) P (VL o I _) AW e' ws' M) as (S' & _ & _).
      rewrite M. exists (put h x e'). split.
      + rewrite app_nil_r. do 2 f_equal. destruct P as [PC _]. rewrite PC in E7, E8.
        destruct (is_wired (e_class (h0 o))) eqn:W; [apply E7; now apply wired_iff|].
        apply E8. intro H. apply wired_iff in H. congruence.
      + unfold inv, put. split; [|split].
        * intro y. destruct (Nat.eqb y x) eqn:Y; [|exact (F y)]. apply Nat.eqb_eq in Y. subst y.
          repeat (split; [assumption|]). exact E6.
        * intros y H. destruct (Nat.eqb y x) eqn:Y.
          -- apply Nat.eqb_eq in Y. subst y. exfalso. apply (H o); [apply in_or_app; right; now left|exact E].
          -- apply F0. intros o' J. apply H. apply in_or_app. now left.
        * intros o' y J E'. apply in_app_or in J as [J|[<-|[]]].
          -- destruct (Nat.eqb y x) eqn:Y; [|exact (F1 o' y J E')]. apply Nat.eqb_eq in Y. subst y.
             exfalso. apply N. now rewrite (into_unique o o' x I (D o' J) E E').
          -- rewrite E in E'. injection E' as <-. rewrite Nat.eqb_refl. split; [|exact S'].
             split; [exact E1|]. split; [exact E2|]. split; [exact E3|]. split; [exact E5|]. split; [exact E6|exact Q].
    - exists h. rewrite app_assoc. split; [reflexivity|].
      destruct V as (F & F0 & F1). split; [exact F|]. split.
      + intros x H. apply F0. intros o' J. apply H. apply in_or_app. now left.
      + intros o' x J E'. apply in_app_or in J as [J|[<-|[]]]; [exact (F1 o' x J E')|congruence].
  Qed.

  (** *** Wires *)
  Lemma mem_nat o l : existsb (Nat.eqb o) l = true <-> In o l.
  Proof.
    rewrite existsb_exists. split.
    - intros (x & I & E). apply Nat.eqb_eq in E. now subst.
    - intro I. exists o. split; [exact I|apply Nat.eqb_refl].
  Qed.
  Lemma existsb_snoc o l x : existsb (Nat.eqb o) (l ++ [x]) = existsb (Nat.eqb o) l || Nat.eqb o x.
  Proof. rewrite existsb_app. cbn. now rewrite Bool.orb_false_r. Qed.
  Lemma lead_snoc_none pre o w : into o = None -> lead into (pre ++ [o]) w = lead into pre w.
  Proof.
    intro E. destruct w as [n|[o'|]]; try reflexivity. cbn [lead]. rewrite existsb_snoc.
    destruct (existsb (Nat.eqb o') pre); [reflexivity|]. cbn.
    destruct (Nat.eqb o' o) eqn:X; [|reflexivity]. apply Nat.eqb_eq in X. subst. now rewrite E.
  Qed.
  Lemma lead_snoc_other pre o w : w <> WRef (Some o) -> lead into (pre ++ [o]) w = lead into pre w.
  Proof.
    intro N. destruct w as [n|[o'|]]; try reflexivity. cbn [lead]. rewrite existsb_snoc.
    destruct (Nat.eqb o' o) eqn:X; [apply Nat.eqb_eq in X; subst; now destruct N|]. now rewrite Bool.orb_false_r.
  Qed.
  Lemma lead_snoc_some pre o x w : incl pre L -> In o L -> ~ In o pre -> into o = Some x ->
    moved_end x o (lead into pre w) = lead into (pre ++ [o]) w.
  Proof.
    intros D I N E. destruct w as [n|[o'|]]; try reflexivity. cbn [lead]. rewrite existsb_snoc.
    destruct (existsb (Nat.eqb o') pre) eqn:X; cbn [orb].
    - apply mem_nat in X. destruct (into o') as [x'|] eqn:E'; cbn [moved_end].
      + destruct (Nat.eqb x' o) eqn:Y; [|reflexivity]. apply Nat.eqb_eq in Y. subst x'. exfalso.
        apply (DL o I). exact (proj1 (target o' o (D o' X) E')).
      + destruct (Nat.eqb o' o) eqn:Y; [|reflexivity]. apply Nat.eqb_eq in Y. subst o'. contradiction.
    - cbn [moved_end]. destruct (Nat.eqb o' o) eqn:Y; [|reflexivity]. apply Nat.eqb_eq in Y. subst o'. now rewrite E.
  Qed.
  Lemma lead_associated pre ws : associated ws -> associated (map (lead_wire into pre) ws).
  Proof.
    intro A. induction A as [|[[[a s] b] t] ws [HA HB] _ IH]; [constructor|]. constructor; [|exact IH]. cbn [lead_wire].
    assert (E : forall w, (forall n, w <> WInt n) -> forall n, lead into pre w <> WInt n).
    { intros [m|[o|]] H n; cbn; [exact (H n)| |discriminate].
      destruct (existsb (Nat.eqb o) pre); [destruct (into o)|]; discriminate. }
    now split; apply E.
  Qed.
  Lemma wires_step pre o gws : incl pre L -> In o L -> ~ In o pre ->
    (forall w, In w gws -> In (WRef (Some o)) (ends w) -> wired (e_class (h0 o))) ->
    wires_moved o (Some (map (lead_wire into pre) gws)) = Some (map (lead_wire into (pre ++ [o])) gws).
  Proof.
    intros D I N W. unfold wires_moved. destruct (into o) as [x|] eqn:E.
    - destruct (is_wired (e_class (h0 o))) eqn:X.
      + cbn [option_map]. f_equal. rewrite map_map. apply map_ext. intros [[[a s] b] t]. cbn [lead_wire moved].
        now rewrite !(lead_snoc_some pre o x).
      + f_equal. apply map_ext_in. intros w J.
        assert (Q : ~ In (WRef (Some o)) (ends w)) by (intro H; apply W, wired_iff in H; [congruence|exact J]).
        destruct w as [[[a s] b] t]. cbn in Q. cbn [lead_wire].
        rewrite !lead_snoc_other; [reflexivity|tauto|tauto].
    - f_equal. apply map_ext. intros [[[a s] b] t]. cbn [lead_wire]. now rewrite !lead_snoc_none.
  Qed.

  (** *** Removing the merged ones *)
  Definition stub (j : item) : item := match j with One _ => j | Many _ _ _ => thin into j end.
  Lemma remove_first_spec h o l : (forall x, In x L -> h x = h0 x) ->
    incl (own l) L -> NoDup (own l) -> In o (own l) ->
    remove_first h o l = Ok (filter (fun j => match j with One x => negb (Nat.eqb x o) | _ => true end) l).
  Proof.
    intros HH. induction l as [|j l IH]; intros IL ND I; [destruct I|].
    destruct j as [x|gid ws k].
    - cbn [own flat_map app] in *. fold (own l) in *. cbn [remove_first filter].
      destruct (Nat.eqb x o) eqn:E; cbn [bind negb].
      + apply Nat.eqb_eq in E. subst x. inversion ND as [|? ? NI ND']; subst. f_equal.
        clear IH IL ND I. induction l as [|j l IH]; [reflexivity|]. cbn [filter]. destruct j as [y|].
        * cbn [own flat_map app] in *. fold (own l) in *. destruct (Nat.eqb y o) eqn:Y.
          -- apply Nat.eqb_eq in Y. subst. exfalso. apply NI. now left.
          -- cbn. f_equal. apply IH; [|now inversion ND']. intro H. apply NI. now right.
        * cbn [own flat_map app] in *. fold (own l) in *. f_equal. now apply IH.
      + assert (XO : x <> o) by now apply Nat.eqb_neq. inversion ND as [|? ? NI ND']; subst.
        destruct I as [I|I]; [contradiction|].
        assert (LX : In x L) by (apply IL; now left). assert (LO : In o L) by (apply IL; now right).
        rewrite (HH x LX), (HH o LO).
        destruct (equal_spec (h0 x) (h0 o) (SL x LX) (SL o LO) (CL x LX) (CL o LO)) as (b & B & _).
        rewrite B. cbn [bind]. destruct b.
        * exfalso. apply XO. apply AL; [exact LX|exact LO|]. apply mergable_iff; [exact (SL x LX)|exact (SL o LO)|].
          apply equal_same_place; auto.
        * rewrite IH; [reflexivity| | |]; [|exact ND'|exact I]. intros y J. apply IL. now right.
    - cbn [remove_first filter]. rewrite IH; [reflexivity|exact IL|exact ND|exact I].
  Qed.
  Definition kept (out : list nat) (j : item) : bool := match j with One x => negb (existsb (Nat.eqb x) out) | _ => true end.
  Lemma own_filter f l : own (filter (fun j => match j with One x => f x | _ => true end) l) = filter f (own l).
  Proof.
    induction l as [|j l IH]; [reflexivity|]. destruct j as [x|]; cbn [filter own flat_map app].
    - fold (own l). destruct (f x); [|exact IH]. cbn [own flat_map app]. f_equal. exact IH.
    - exact IH.
  Qed.
  Lemma remove_all_spec h os l : (forall x, In x L -> h x = h0 x) ->
    incl (own l) L -> NoDup (own l) -> NoDup os -> incl os (own l) ->
    remove_all h os l = Ok (filter (kept os) l).
  Proof.
    intro HH. revert l. induction os as [|o os IH]; intros l IL ND NO IO.
    - cbn [remove_all]. f_equal. symmetry. clear. induction l as [|[x|] l IH]; [reflexivity| |]; cbn [filter kept existsb negb]; now f_equal.
    - cbn [remove_all]. rewrite (remove_first_spec h o l HH IL ND) by (apply IO; now left). cbn [bind].
      inversion NO as [|? ? NI NO']; subst.
      rewrite IH.
      + f_equal. clear. induction l as [|[x|] l IH]; [reflexivity| |]; cbn [filter kept existsb negb].
        * destruct (Nat.eqb x o); cbn [negb orb]; [exact IH|]. cbn [filter kept].
          destruct (existsb (Nat.eqb x) os); cbn [negb]; [exact IH|now f_equal].
        * cbn [filter kept]. now f_equal.
      + rewrite (own_filter (fun x => negb (Nat.eqb x o))). intros y J. apply filter_In in J as [J _]. exact (IL y J).
      + rewrite (own_filter (fun x => negb (Nat.eqb x o))). now apply NoDup_filter.
      + exact NO'.
      + rewrite (own_filter (fun x => negb (Nat.eqb x o))). intros y J. apply filter_In. split; [apply IO; now right|].
        apply Bool.negb_true_iff, Nat.eqb_neq. intros ->. contradiction.
  Qed.

  (** *** Going through the members *)
  Definition thin_members (l : list item) : list item :=
    flat_map (fun j => match j with
                       | One o => match into o with Some _ => [] | None => [j] end
                       | Many _ _ _ => [thin into j]
                       end) l.
  Definition one_ok (i : item) : Prop := forall h done ws,
    incl done L -> inv h done -> incl (leaves i) L -> (forall o, In o (leaves i) -> ~ In o done) -> NoDup (leaves i) ->
    tidy h0 i -> (forall w, ws = Some w -> associated w) ->
    exists h', inv h' (done ++ leaves i) /\
      radd check near true i h (grid_of done) ws =
        Ok (mkPlaced h' (grid_of (done ++ leaves i))
              (match i with One o => wires_moved o ws | Many _ _ _ => ws end)
              (match i with One o => if stayed o then Some i else None | Many _ _ _ => Some (thin into i) end)).

  Lemma handle_spec l gws : Forall one_ok l -> associated gws -> forall h done pre,
    incl done L -> inv h done -> incl (all_leaves l) L -> (forall o, In o (all_leaves l) -> ~ In o done) -> NoDup (all_leaves l) ->
    Forall (tidy h0) l -> incl pre L -> (forall o, In o (own l) -> ~ In o pre) ->
    (forall w o, In w gws -> In (WRef (Some o)) (ends w) -> In o (own l) -> wired (e_class (h0 o))) ->
    exists h', inv h' (done ++ all_leaves l) /\
      handle check near true l h (grid_of done) (map (lead_wire into pre) gws) =
        Ok (mkHandled h' (grid_of (done ++ all_leaves l)) (map (lead_wire into (pre ++ own l)) gws) (map stub l) (filter left (own l))).
  Proof.
    intros FO AW. induction FO as [|j l Hj _ IH]; intros h done pre D V LI LN ND T PI PN W.
    - exists h. cbn [all_leaves own flat_map map filter handle]. rewrite !app_nil_r. split; [exact V|reflexivity].
    - cbn [all_leaves flat_map] in LI, LN, ND |- *. fold (all_leaves l) in *. inversion T as [|? ? Tj Tl]; subst.
      assert (NDj : NoDup (leaves j)) by (clear - ND; induction (leaves j); [constructor|]; cbn in ND; inversion ND; subst; constructor; [intro; apply H1; apply in_or_app; now left|auto]).
      assert (NDl : NoDup (all_leaves l)) by (clear - ND; induction (leaves j); [exact ND|]; cbn in ND; inversion ND; auto).
      assert (DIS : forall o, In o (leaves j) -> ~ In o (all_leaves l)).
      { clear - ND. induction (leaves j) as [|y m IHm]; intros o I; [destruct I|]. cbn in ND. inversion ND as [|? ? NI ND']; subst.
        destruct I as [<-|I]; [intro H; apply NI; apply in_or_app; now right|now apply IHm]. }
      destruct (Hj h done (Some (map (lead_wire into pre) gws)) D V) as (h1 & V1 & R1); try assumption.
      { intros o I. apply LI, in_or_app. now left. }
      { intros o I. apply LN, in_or_app. now left. }
      { intros w H. injection H as <-. now apply lead_associated. }
      cbn [handle]. fold (handle check near true). rewrite R1. cbn [bind p_heap p_grid p_wires p_item].
      set (pre' := match j with One o => pre ++ [o] | Many _ _ _ => pre end).
      assert (W1 : match (match j with One o => wires_moved o (Some (map (lead_wire into pre) gws))
                           | Many _ _ _ => Some (map (lead_wire into pre) gws) end) with
                   | Some w => w | None => map (lead_wire into pre) gws end = map (lead_wire into pre') gws).
      { destruct j as [o|]; [|reflexivity]. rewrite wires_step; [reflexivity|exact PI| | |].
        - apply LI. now left.
        - apply PN. cbn. now left.
        - intros w J K. apply (W w o J K). cbn. now left. }
      rewrite W1.
      destruct (IH h1 (done ++ leaves j) pre') as (h2 & V2 & R2); try assumption.
      { intros o I. apply in_app_or in I as [I|I]; [exact (D o I)|]. apply LI, in_or_app. now left. }
      { intros o I. apply LI, in_or_app. now right. }
      { intros o I J. apply in_app_or in J as [J|J]; [|exact (DIS o J I)]. revert J. apply LN, in_or_app. now right. }
      { unfold pre'. destruct j as [o|]; [|exact PI]. intros y J. apply in_app_or in J as [J|[<-|[]]]; [exact (PI y J)|]. apply LI. now left. }
      { intros o I. unfold pre'. destruct j as [y|]; [|apply PN; exact I]. intro J. apply in_app_or in J as [J|[<-|[]]].
        - revert J. apply PN. cbn. now right.
        - apply (DIS y); [now left|]. now apply own_leaves. }
      { intros w o J K I. apply (W w o J K). destruct j; [cbn; now right|exact I]. }
      rewrite R2. cbn [bind d_heap d_grid d_wires d_items d_merged]. exists h2. rewrite app_assoc. split; [exact V2|].
      unfold pre'. destruct j as [o|]; cbn [own flat_map app stub map filter]; fold (own l).
      + rewrite <- (app_assoc pre [o]). unfold stayed, left. destruct (into o); reflexivity.
      + reflexivity.
  Qed.

  Lemma own_stub l : own (map stub l) = own l.
  Proof.
    unfold own. rewrite flat_map_concat_map, map_map, <- flat_map_concat_map. apply flat_map_ext.
    intros [o|]; reflexivity.
  Qed.
  Lemma nodup_own l : NoDup (all_leaves l) -> NoDup (own l).
  Proof.
    induction l as [|j l IH]; [constructor|]. cbn [all_leaves flat_map]. fold (all_leaves l). intro N.
    destruct j as [o|]; cbn [own flat_map app leaves] in *; fold (own l).
    - inversion N as [|? ? NI N']; subst. constructor; [|now apply IH]. intro H. apply NI. now apply own_leaves.
    - apply IH. clear IH. induction (flat_map leaves items) as [|y m IHm]; [exact N|]. cbn in N. inversion N; auto.
  Qed.
  Lemma thin_filter l : NoDup (own l) -> filter (kept (filter left (own l))) (map stub l) = thin_members l.
  Proof.
    intro ND. assert (H : forall o, In o (own l) -> existsb (Nat.eqb o) (filter left (own l)) = left o).
    { intros o I. destruct (left o) eqn:E.
      - apply mem_nat. apply filter_In. now split.
      - destruct (existsb (Nat.eqb o) (filter left (own l))) eqn:X; [|reflexivity].
        apply mem_nat, filter_In in X as [_ X]. congruence. }
    revert H. generalize (filter left (own l)). intros out H. clear ND. unfold thin_members.
    induction l as [|j l IH]; [reflexivity|]. destruct j as [o|]; cbn [map stub filter kept flat_map].
    - rewrite H by (cbn; now left). unfold left.
      destruct (into o); cbn [negb app]; rewrite IH; try reflexivity; intros y J; apply H; cbn; now right.
    - change (kept out (thin into (Many gid ws items))) with true. cbn [app]. f_equal. apply IH. intros y J. apply H. exact J.
  Qed.

  Lemma all_ok i : one_ok i.
  Proof.
    induction i as [o|gid gws l IH] using item_ind'; intros h done ws D V LI LN ND T AW.
    - destruct (add_one h done o ws D V) as (h' & A & V'); try assumption.
      + apply LI. now left.
      + apply LN. now left.
      + exists h'. split; [exact V'|]. rewrite radd_one, A. cbn [bind a_heap a_grid a_wires a_new leaves]. reflexivity.
    - apply tidy_many in T as (TA & TW & TF). cbn [leaves] in *. fold (all_leaves l) in *.
      destruct (handle_spec l gws IH TA h done []) as (h' & V' & H); try assumption.
      + intros x [].
      + intros o _ [].
      + exists h'. split; [exact V'|]. rewrite radd_many.
        assert (E : map (lead_wire into []) gws = gws).
        { rewrite <- (map_id gws) at 2. apply map_ext. intros [[[a s] b] t]. cbn [lead_wire].
          assert (X : forall w, lead into [] w = w) by (intros [n|[o|]]; reflexivity). now rewrite !X. }
        rewrite E in H. rewrite H. cbn [bind d_heap d_grid d_wires d_items d_merged app].
        assert (NO : NoDup (own l)) by now apply nodup_own.
        rewrite remove_all_spec.
        * cbn [bind]. rewrite thin_filter by exact NO. reflexivity.
        * intros x J. apply (fresh_same h' (done ++ all_leaves l)); [|exact V'|exact J].
          intros y K. apply in_app_or in K as [K|K]; [exact (D y K)|exact (LI y K)].
        * rewrite own_stub. intros y J. apply LI. now apply own_leaves.
        * now rewrite own_stub.
        * now apply NoDup_filter.
        * rewrite own_stub. intros y J. now apply filter_In in J as [J _].
  Qed.
End Main.

(** ** One insertion *)
Definition into_of (h : heap) (grid : list nat) (o : nat) : option nat :=
  find (fun x => match mergable methods_table bases_table (h x) (h o) with Ok b => b | Err _ => false end) grid.
Lemma into_of_spec h grid o : apart h grid -> (forall x, In x grid -> sound (h x)) -> sound (h o) ->
  forall x, into_of h grid o = Some x <-> In x grid /\ same_place (h x) (h o).
Proof.
  intros A S So x.
  assert (T : forall y, In y grid -> (match mergable methods_table bases_table (h y) (h o) with Ok b => b | Err _ => false end) = true <-> same_place (h y) (h o)).
  { intros y I. destruct (mergable_spec (h y) (h o) (S y I) So) as (b & B & E). rewrite B. exact E. }
  unfold into_of. split.
  - intro F. apply find_some in F as [I F]. split; [exact I|]. now apply T.
  - intros [I P]. destruct (find _ grid) as [y|] eqn:F.
    + apply find_some in F as [J F]. apply T in F; [|exact J]. f_equal. apply A; [exact J|exact I|].
      eapply place_trans; [exact F|]. apply place_sym; [exact (S x I)|exact So|exact P].
    + exfalso. pose proof (find_none _ _ F x I) as N. cbv beta in N. rewrite (proj2 (T x I) P) in N. discriminate N.
Qed.

Lemma taken_iff c i : new_id c i -> taken_id c (id_of (c_heap c) i) = false.
Proof.
  intro N. unfold taken_id. destruct (id_of (c_heap c) i) as [[|a s]|] eqn:E; try reflexivity.
  destruct (existsb _ _) eqn:X; [|reflexivity]. apply existsb_exists in X as (j & J & X).
  destruct (id_of (c_heap c) j) as [t|] eqn:F; [|discriminate]. apply pystr_eqb_eq in X. subst t.
  exfalso. exact (N (a :: s) E ltac:(discriminate) j J F).
Qed.
Lemma taken_new c i : taken_id c (id_of (c_heap c) i) = false -> new_id c i.
Proof.
  intros T s E NE j J F. unfold taken_id in T. rewrite E in T. destruct s as [|a s]; [now destruct NE|].
  assert (X : existsb (fun i => match id_of (c_heap c) i with Some t => pystr_eqb t (a :: s) | None => false end) (c_items c) = true).
  { apply existsb_exists. exists j. split; [exact J|]. rewrite F. apply pystr_eqb_refl. }
  congruence.
Qed.

Definition into_correct (c : coll) (i : item) (into : nat -> option nat) : Prop :=
  forall o, In o (leaves i) -> forall x, into o = Some x <-> In x (c_grid c) /\ same_place (c_heap c x) (c_heap c o).

Lemma leaves_thin into i : match i with One _ => True | Many _ _ _ => leaves (thin into i) = filter (stayed into) (leaves i) end.
Proof.
  induction i as [o|gid ws l IH] using item_ind'; [exact Logic.I|]. cbn [leaves thin].
  induction IH as [|j l Hj _ IH]; [reflexivity|]. cbn [flat_map]. rewrite flat_map_app, filter_app. f_equal; [|exact IH].
  destruct j as [o|].
  - unfold stayed. cbn. destruct (into o); reflexivity.
  - cbn [flat_map]. rewrite app_nil_r. exact Hj.
Qed.
Lemma nodup_app {A} (l m : list A) : NoDup l -> NoDup m -> (forall x, In x l -> ~ In x m) -> NoDup (l ++ m).
Proof.
  intros N M D. induction N as [|x l NI N IH]; [exact M|]. cbn. constructor.
  - intro H. apply in_app_or in H as [H|H]; [contradiction|]. exact (D x (or_introl eq_refl) H).
  - apply IH. intros y I. apply D. now right.
Qed.

Lemma insert_ok check near c idx i :
  in_order c -> fit check (c_heap c) (c_grid c) i -> reports near (c_heap c) (c_grid c ++ leaves i) -> new_id c i ->
  exists into c', insert check near c idx true true i = Ok c' /\
    into_correct c i into /\
    c_grid c' = c_grid c ++ filter (fun o => match into o with None => true | Some _ => false end) (leaves i) /\
    c_items c' = (match i with
                  | One o => match into o with Some _ => c_items c | None => py_insert (c_items c) idx i end
                  | Many _ _ _ => py_insert (c_items c) idx (thin into i)
                  end) /\
    (forall o x, In o (leaves i) -> into o = Some x -> took_over (c_heap c x) (c_heap c o) (c_heap c' x)) /\
    (forall x, (forall o, In o (leaves i) -> into o <> Some x) -> c_heap c' x = c_heap c x) /\
    in_order c' /\ (forall x, framed (e_class (c_heap c x)) (c_heap c x) (c_heap c' x)).
Proof.
  intros (O1 & O2 & O3 & O4 & O5) (F1 & F2 & F3 & F4 & F5) RN NI.
  set (into := into_of (c_heap c) (c_grid c)).
  assert (IN : into_correct c i into).
  { intros o I x. apply into_of_spec; [exact O4|exact O5|]. now apply F4. }
  assert (INV0 : inv (c_heap c) into (c_heap c) []).
  { split; [intro; apply framed_refl|]. split; [reflexivity|]. intros o x []. }
  destruct (all_ok check near (c_heap c) (c_grid c) (leaves i) into O4 O5 F2 F3
    (fun o I => proj1 (F4 o I)) (fun o I => proj1 (proj2 (F4 o I))) (fun o I => proj2 (proj2 (F4 o I))) RN IN i
    (c_heap c) [] None ltac:(intros ? []) INV0 ltac:(intros ? H; exact H) ltac:(intros ? _ []) F1 F5 ltac:(discriminate))
    as (h' & V & R).
  unfold grid_of in R. cbn [filter app] in R, V. rewrite app_nil_r in R.
  exists into. eexists. split; [|].
  { unfold insert. cbn [negb andb]. rewrite taken_iff by exact NI. rewrite R. cbn [bind p_heap p_grid p_item]. reflexivity. }
  cbn [c_grid c_items c_heap]. split; [exact IN|]. split; [reflexivity|].
  assert (EI : match (match i with One o => if stayed into o then Some i else None | Many _ _ _ => Some (thin into i) end) with
               | Some i' => py_insert (c_items c) idx i' | None => c_items c end =
               match i with One o => match into o with Some _ => c_items c | None => py_insert (c_items c) idx i end
               | Many _ _ _ => py_insert (c_items c) idx (thin into i) end).
  { destruct i as [o|]; [|reflexivity]. unfold stayed. now destruct (into o). }
  destruct V as (VF & V0 & V1).
  split; [exact EI|]. split; [intros o x I E; exact (proj1 (V1 o x I E))|]. split; [exact V0|].
  split; [|exact VF].
  assert (PL : Permutation (all_leaves (match i with One o => match into o with Some _ => c_items c | None => py_insert (c_items c) idx i end
               | Many _ _ _ => py_insert (c_items c) idx (thin into i) end)) (filter (stayed into) (leaves i) ++ all_leaves (c_items c))).
  { assert (Q : forall j, Permutation (all_leaves (py_insert (c_items c) idx j)) (leaves j ++ all_leaves (c_items c))).
    { intro j. unfold all_leaves. rewrite (Permutation_flat_map leaves (TileList_Proofs.py_insert_perm _ (c_items c) idx j)). reflexivity. }
    pose proof (leaves_thin into i) as LT. destruct i as [o|].
    - cbn [leaves filter]. unfold stayed. destruct (into o); [reflexivity|]. rewrite Q. reflexivity.
    - rewrite Q, LT. reflexivity. }
  assert (G1 : NoDup (c_grid c ++ filter (stayed into) (leaves i))).
  { apply nodup_app; [exact O1|now apply NoDup_filter|]. intros x I J. apply filter_In in J as [J _]. exact (F2 x J I). }
  unfold in_order. cbn [c_grid c_items c_heap].
  rewrite EI. split; [exact G1|]. split; [|split; [|split]].
  - apply (Permutation_NoDup (Permutation_sym PL)). apply nodup_app; [now apply NoDup_filter|exact O2|].
    intros x I J. apply filter_In in I as [I _]. apply (F2 x I). now apply O3.
  - intro o. rewrite PL, !in_app_iff, O3. tauto.
  - intros x y I J P.
    apply (framed_place _ _ _ _ (framed_sym _ _ _ (VF x))) in P. apply (framed_place_r _ _ _ _ (framed_sym _ _ _ (VF y))) in P.
    apply (grid_apart (c_heap c) (c_grid c) (leaves i) into O4 O5 F3 (fun o I => proj1 (F4 o I)) IN (leaves i)); auto.
    intros z K. exact K.
  - intros o I. apply in_app_or in I as [I|I].
    + destruct (in_dec Nat.eq_dec o (flat_map (fun o => match into o with Some y => [y] | None => [] end) (leaves i))) as [M|M].
      * apply in_flat_map in M as (o' & M & E). destruct (into o') as [y|] eqn:EI'; [|destruct E].
        destruct E as [<-|[]]. exact (proj2 (V1 o' y M EI')).
      * rewrite V0; [now apply O5|]. intros o' M' E. apply M. apply in_flat_map. exists o'. rewrite E. split; [exact M'|now left].
    + apply filter_In in I as [I _]. rewrite V0; [now apply F4|]. intros o' M E.
      apply (F2 o I). exact (proj1 (proj1 (IN o' M o) E)).
Qed.

(** ** The same once more *)
Lemma insert_again check near c idx i into c' idx2 i2 :
  in_order c' -> into_correct c i into ->
  (forall o, In o (leaves i) -> sound (c_heap c o)) ->
  (forall o, In o (leaves i) -> ~ In o (c_grid c)) ->
  insert check near c idx true true i = Ok c' ->
  c_grid c' = c_grid c ++ filter (fun o => match into o with None => true | Some _ => false end) (leaves i) ->
  (forall o x, In o (leaves i) -> into o = Some x -> took_over (c_heap c x) (c_heap c o) (c_heap c' x)) ->
  (forall x, (forall o, In o (leaves i) -> into o <> Some x) -> c_heap c' x = c_heap c x) ->
  (forall x, framed (e_class (c_heap c x)) (c_heap c x) (c_heap c' x)) ->
  fit check (c_heap c') (c_grid c') i2 -> reports near (c_heap c') (c_grid c' ++ leaves i2) -> new_id c' i2 ->
  (forall o2, In o2 (leaves i2) -> exists o, In o (leaves i) /\ c_heap c' o2 = c_heap c o) ->
  exists c'', insert check near c' idx2 true true i2 = Ok c'' /\
    c_grid c'' = c_grid c' /\
    (forall x, same_entity (c_heap c' x) (c_heap c'' x)) /\
    match i2 with
    | One _ => c_items c'' = c_items c'
    | Many _ _ _ => exists g, c_items c'' = py_insert (c_items c') idx2 g /\ leaves g = []
    end.
Proof.
  intros O' IN SO FR _ G T U VF F2 R2 N2 CP.
  destruct (insert_ok check near c' idx2 i2 O' F2 R2 N2) as (into2 & c'' & R & IN2 & G2 & I2 & T2 & U2 & _ & _).
  assert (H : forall o2, In o2 (leaves i2) -> exists x o, into2 o2 = Some x /\ In o (leaves i) /\ c_heap c' o2 = c_heap c o /\
            forall f, In f (fields_of (e_class (c_heap c' x))) -> stays (e_class (c_heap c' x)) f = false ->
              get (e_root (c_heap c' x)) f = get (e_root (c_heap c o)) f).
  { intros o2 I. destruct (CP o2 I) as (o & J & E). destruct (into o) as [x|] eqn:X.
    - exists x, o. split; [|split; [exact J|split; [exact E|]]].
      + apply IN2; [exact I|]. destruct (proj1 (IN o J x) X) as [K P]. rewrite G. split; [apply in_or_app; now left|].
        rewrite E. exact (framed_place _ _ _ _ (VF x) P).
      + destruct (T o x J X) as (T1 & _ & _ & T4 & _). rewrite T1. exact T4.
    - assert (EO : c_heap c' o = c_heap c o).
      { apply U. intros o' J' X'. apply (FR o J). exact (proj1 (proj1 (IN o' J' o) X')). }
      exists o, o. split; [|split; [exact J|split; [exact E|]]].
      + apply IN2; [exact I|]. rewrite G. split; [apply in_or_app; right; apply filter_In; now rewrite X|].
        rewrite E, EO. apply place_refl. now apply SO.
      + intros f _ _. now rewrite EO. }
  assert (NF : forall l, incl l (leaves i2) -> filter (fun o => match into2 o with None => true | Some _ => false end) l = []).
  { induction l as [|o l IH]; intro L; [reflexivity|]. cbn [filter]. destruct (H o) as (x & _ & E & _); [apply L; now left|].
    rewrite E. apply IH. intros y J. apply L. now right. }
  exists c''. split; [exact R|]. split.
  { rewrite G2, NF by (intros ? K; exact K). apply app_nil_r. }
  split.
  - intro x. destruct (in_dec Nat.eq_dec x (flat_map (fun o => match into2 o with Some y => [y] | None => [] end) (leaves i2))) as [M|M].
    + apply in_flat_map in M as (o2 & M & E). destruct (H o2 M) as (y & o & X & J & E2 & Q). rewrite X in E.
      destruct E as [<-|[]]. destruct (T2 o2 y M X) as (A & B & C & D & E3 & _).
      split; [exact A|]. split; [exact B|]. split; [exact C|]. intro f.
      destruct (in_dec pystr_eq_dec f (fields_of (e_class (c_heap c' y)))) as [K|K]; [|apply E3; now left].
      destruct (stays (e_class (c_heap c' y)) f) eqn:S; [apply E3; now right|].
      rewrite (D f K S), (Q f K S), E2. reflexivity.
    + rewrite U2; [repeat split; reflexivity|]. intros o2 J E. apply M. apply in_flat_map. exists o2. rewrite E. split; [exact J|now left].
  - pose proof (leaves_thin into2 i2) as LT. destruct i2 as [o|].
    + rewrite I2. destruct (H o (or_introl eq_refl)) as (x & _ & E & _). now rewrite E.
    + eexists. split; [exact I2|]. rewrite LT. apply NF. intros ? K; exact K.
Qed.

(** ** Many insertions *)
Lemma tidy_ext h h' i : (forall o, In o (leaves i) -> h' o = h o) -> tidy h i -> tidy h' i.
Proof.
  induction i as [o|gid ws l IH] using item_ind'; intros E T; [exact Logic.I|].
  apply tidy_many in T as (A & B & C). apply tidy_many. split; [exact A|]. split.
  - intros w o I J K. rewrite E; [exact (B w o I J K)|]. cbn [leaves]. fold (all_leaves l). now apply own_leaves.
  - cbn [leaves] in E. clear A B. induction IH as [|j l Hj _ IH]; [constructor|].
    inversion C; subst. constructor.
    + apply Hj; [|assumption]. intros o I. apply E. cbn [flat_map]. apply in_or_app. now left.
    + apply IH; [|assumption]. intros o I. apply E. cbn [flat_map]. apply in_or_app. now right.
Qed.
Lemma reports_framed near h h' all all' : (forall x, framed (e_class (h x)) (h x) (h' x)) -> incl all' all ->
  reports near h all -> reports near h' all'.
Proof.
  intros F L R grid o I J. destruct (R grid o) as [A B]; [intros x K; exact (L x (I x K))|exact (L o J)|].
  assert (Q : forall x y, same_place (h x) (h y) -> same_place (h' x) (h' y)).
  { intros x y P. apply (framed_place _ _ _ _ (F x)). exact (framed_place_r _ _ _ _ (F y) P). }
  assert (Q' : forall x y, same_place (h' x) (h' y) -> same_place (h x) (h y)).
  { intros x y P. apply (framed_place _ _ _ _ (framed_sym _ _ _ (F x))). exact (framed_place_r _ _ _ _ (framed_sym _ _ _ (F y)) P). }
  split; [exact A|]. intros AP x K P. apply B; [|exact K|exact (Q' x o P)].
  intros y z Y Z PP. apply AP; [exact Y|exact Z|exact (Q y z PP)].
Qed.
Lemma framed_class k e e' : framed k e e' -> e_class e' = e_class e.
Proof. intros (A & _). exact A. Qed.
Lemma framed_compose a b c : framed (e_class a) a b -> framed (e_class b) b c -> framed (e_class a) a c.
Proof. intros F G. rewrite (framed_class _ _ _ F) in G. exact (framed_trans _ _ _ _ F G). Qed.

Definition brought (l : list (Z * item)) : list nat := all_leaves (map snd l).

Lemma history check near l : forall c,
  in_order c -> Forall (fun p => fit check (c_heap c) (c_grid c) (snd p)) l -> NoDup (brought l) ->
  reports near (c_heap c) (c_grid c ++ brought l) ->
  insert_all check near c l = Err DuplicateIDError \/
  exists c', insert_all check near c l = Ok c' /\ in_order c' /\
    incl (c_grid c) (c_grid c') /\ incl (c_grid c') (c_grid c ++ brought l) /\
    (forall x, framed (e_class (c_heap c x)) (c_heap c x) (c_heap c' x)) /\
    (forall x, (forall o, In o (brought l) -> ~ same_place (c_heap c x) (c_heap c o)) -> c_heap c' x = c_heap c x) /\
    (forall o, In o (brought l) -> exists x, In x (c_grid c') /\ same_place (c_heap c' x) (c_heap c o)) /\
    (forall l1 p l2 o, l = l1 ++ p :: l2 -> In o (leaves (snd p)) ->
       (forall o', In o' (brought l2) -> ~ same_place (c_heap c o) (c_heap c o')) ->
       exists x, In x (c_grid c') /\ same_place (c_heap c' x) (c_heap c o) /\
         forall f, In f (fields_of (e_class (c_heap c o))) -> stays (e_class (c_heap c o)) f = false ->
           get (e_root (c_heap c' x)) f = get (e_root (c_heap c o)) f).
Proof.
  induction l as [|[idx i] l IH]; intros c O F ND R.
  - right. exists c. split; [reflexivity|]. split; [exact O|]. split; [intros ? K; exact K|].
    split; [intros ? K; apply in_or_app; now left|]. split; [intro; apply framed_refl|]. split; [reflexivity|].
    split; [intros o []|]. intros [|? ?] ? ? ? E; discriminate E.
  - apply Forall_cons_iff in F as [Fi Fl]. cbn [snd] in Fi.
    assert (BR : brought ((idx, i) :: l) = leaves i ++ brought l) by reflexivity. rewrite BR in *.
    cbn [insert_all]. destruct (taken_id c (id_of (c_heap c) i)) eqn:TK.
    { left. unfold insert. cbn [negb andb]. now rewrite TK. }
    apply taken_new in TK.
    assert (R0 : reports near (c_heap c) (c_grid c ++ leaves i)).
    { apply (reports_framed near (c_heap c) _ (c_grid c ++ leaves i ++ brought l)); [intro; apply framed_refl| |exact R].
      intros x K. rewrite !in_app_iff in *. tauto. }
    destruct (insert_ok check near c idx i O Fi R0 TK) as (into & c1 & E & IN & G & _ & T & U & O1 & VF).
    rewrite E. cbn [bind].
    pose proof Fi as (Fn & Ff & Fa & Fs & Ft).
    assert (DIS : forall o, In o (leaves i) -> ~ In o (brought l)).
    { clear - ND. induction (leaves i) as [|y m IHm]; intros o I; [destruct I|]. cbn in ND. inversion ND as [|? ? NI ND']; subst.
      destruct I as [<-|I]; [intro H; apply NI; apply in_or_app; now right|now apply IHm]. }
    assert (NDl : NoDup (brought l)) by (clear - ND; induction (leaves i); [exact ND|]; cbn in ND; inversion ND; auto).
    assert (FRl : forall o, In o (brought l) -> ~ In o (c_grid c)).
    { intros o I. unfold brought, all_leaves in I. apply in_flat_map in I as (j & J & I). apply in_map_iff in J as (p & <- & J).
      rewrite Forall_forall in Fl. destruct (Fl p J) as (_ & Q & _). exact (Q o I). }
    assert (KEEP : forall o, In o (brought l) -> c_heap c1 o = c_heap c o).
    { intros o I. apply U. intros o' J X. apply (FRl o I). exact (proj1 (proj1 (IN o' J o) X)). }
    assert (SUB1 : incl (c_grid c1) (c_grid c ++ leaves i)).
    { rewrite G. intros x K. apply in_app_or in K as [K|K]; apply in_or_app; [now left|right]. now apply filter_In in K as [K _]. }
    assert (Fl1 : Forall (fun p => fit check (c_heap c1) (c_grid c1) (snd p)) l).
    { rewrite Forall_forall in Fl |- *. intros p P. destruct (Fl p P) as (A1 & A2 & A3 & A4 & A5).
      assert (B : forall o, In o (leaves (snd p)) -> In o (brought l)).
      { intros o I. unfold brought, all_leaves. apply in_flat_map. exists (snd p). split; [now apply in_map|exact I]. }
      split; [exact A1|]. split; [|split; [|split]].
      - intros o I K. apply SUB1, in_app_or in K as [K|K]; [exact (A2 o I K)|exact (DIS o K (B o I))].
      - intros x y I J. rewrite !KEEP by auto. now apply A3.
      - intros o I. rewrite KEEP by auto. now apply A4.
      - apply (tidy_ext (c_heap c)); [|exact A5]. intros o I. apply KEEP. auto. }
    assert (R1 : reports near (c_heap c1) (c_grid c1 ++ brought l)).
    { apply (reports_framed near (c_heap c) _ (c_grid c ++ leaves i ++ brought l)); [exact VF| |exact R].
      intros x K. apply in_app_or in K as [K|K]; [apply SUB1 in K|]; rewrite !in_app_iff in *; tauto. }
    (* where the entities of this item went *)
    assert (HERE : forall o, In o (leaves i) -> exists x, In x (c_grid c1) /\ same_place (c_heap c1 x) (c_heap c o) /\
              forall f, In f (fields_of (e_class (c_heap c o))) -> stays (e_class (c_heap c o)) f = false ->
                get (e_root (c_heap c1 x)) f = get (e_root (c_heap c o)) f).
    { intros o I. destruct (into o) as [x|] eqn:X.
      - destruct (proj1 (IN o I x) X) as [K P]. exists x. split; [rewrite G; apply in_or_app; now left|].
        split; [exact (framed_place _ _ _ _ (VF x) P)|]. destruct P as [PC _].
        destruct (T o x I X) as (_ & _ & _ & T4 & _). rewrite PC in T4. exact T4.
      - assert (EO : c_heap c1 o = c_heap c o).
        { apply U. intros o' J X'. apply (Ff o I). exact (proj1 (proj1 (IN o' J o) X')). }
        exists o. rewrite EO. split; [rewrite G; apply in_or_app; right; apply filter_In; now rewrite X|].
        split; [apply place_refl; now apply Fs|reflexivity]. }
    destruct (IH c1 O1 Fl1 NDl R1) as [D|(c' & E' & O' & I1 & I2 & VF' & U' & P' & L')]; [now left|right].
    exists c'. split; [exact E'|]. split; [exact O'|].
    assert (SUB0 : incl (c_grid c) (c_grid c1)) by (rewrite G; intros x K; apply in_or_app; now left).
    split; [intros x K; exact (I1 x (SUB0 x K))|].
    split; [intros x K; apply I2 in K; apply in_app_or in K as [K|K]; [apply SUB1 in K|]; rewrite !in_app_iff in *; tauto|].
    split; [intro x; exact (framed_compose _ _ _ (VF x) (VF' x))|].
    split; [|split].
    + intros x H. assert (E1 : c_heap c1 x = c_heap c x).
      { apply U. intros o I X. apply (H o); [apply in_or_app; now left|]. exact (proj2 (proj1 (IN o I x) X)). }
      rewrite <- E1. apply U'. intros o I. rewrite E1, KEEP by exact I. apply H. apply in_or_app. now right.
    + intros o I. apply in_app_or in I as [I|I].
      * destruct (HERE o I) as (x & K & P & _). exists x. split; [exact (I1 x K)|]. exact (framed_place _ _ _ _ (VF' x) P).
      * destruct (P' o I) as (x & K & P). exists x. rewrite (KEEP o I) in P. now split.
    + intros [|p0 l1] p l2 o EL I H.
      * cbn in EL. injection EL as <- <-. cbn [snd] in I. destruct (HERE o I) as (x & K & P & Q). exists x.
        assert (EX : c_heap c' x = c_heap c1 x).
        { apply U'. intros o' J P2. rewrite (KEEP o' J) in P2. apply (H o' J).
          eapply place_trans; [|exact P2]. apply place_sym; [|apply Fs; exact I|exact P]. apply O1. exact K. }
        rewrite EX. split; [exact (I1 x K)|]. now split.
      * cbn in EL. injection EL as <- EL. assert (B2 : forall z, In z (leaves (snd p)) \/ In z (brought l2) -> In z (brought l)).
        { intros z Z. unfold brought, all_leaves. rewrite EL, map_app, flat_map_app. apply in_or_app. right. cbn [map flat_map].
          apply in_or_app. destruct Z; [now left|now right]. }
        destruct (L' l1 p l2 o EL I) as (x & K & P & Q).
        { intros o' J. rewrite !KEEP by auto. now apply H. }
        assert (KO : c_heap c1 o = c_heap c o) by (apply KEEP, B2; now left).
        exists x. rewrite KO in P, Q. now split.
Qed.

(** ** Wires *)
Lemma local_many gid ws l : local (Many gid ws l) <-> incl (wire_refs ws) (own l) /\ Forall local l.
Proof.
  cbn [local]. assert (E : (fix each (l : list item) : Prop := match l with [] => True | j :: l' => local j /\ each l' end) l <-> Forall local l).
  { induction l as [|j l IH]; [split; constructor|]. rewrite Forall_cons_iff, <- IH. reflexivity. }
  now rewrite E.
Qed.
Lemma refs_thin into i (P : nat -> Prop) : local i ->
  (forall o, In o (leaves i) -> match into o with Some x => P x | None => P o end) ->
  forall o, In o (refs (thin into i)) -> P o.
Proof.
  induction i as [o|gid ws l IH] using item_ind'; intros LO H; [intros o' []|].
  apply local_many in LO as [LW LL]. cbn [thin refs leaves] in *. fold (all_leaves l) in H. intros o I.
  apply in_app_or in I as [I|I].
  - unfold wire_refs in I. apply in_flat_map in I as (w' & J & K). apply in_map_iff in J as (w & <- & J).
    apply in_flat_map in K as (e' & K & M).
    assert (X : exists e, In e (ends w) /\ e' = lead into (own l) e).
    { destruct w as [[[a s] b] t]. cbn in K. destruct K as [<-|[<-|[]]]; eexists; (split; [|reflexivity]); cbn; tauto. }
    destruct X as (e & X & ->). destruct e as [n|[o'|]]; try destruct M. cbn [lead] in M.
    assert (W : In o' (own l)).
    { apply LW. unfold wire_refs. apply in_flat_map. exists w. split; [exact J|]. apply in_flat_map. eexists. split; [exact X|now left]. }
    rewrite (proj2 (mem_nat o' (own l)) W) in M. pose proof (H o' (own_leaves l o' W)) as HP.
    destruct (into o') as [x|]; destruct M as [<-|[]]; exact HP.
  - clear LW. revert H I. induction IH as [|j l Hj _ IH]; intros H I; [destruct I|].
    inversion LL; subst. cbn [flat_map all_leaves] in *. rewrite flat_map_app in I. apply in_app_or in I as [I|I].
    + apply Hj; [assumption|intros z Z; apply H; apply in_or_app; now left|].
      destruct j as [y|]; [destruct (into y); destruct I|]. cbn [flat_map] in I. now rewrite app_nil_r in I.
    + apply IH; [assumption| |exact I]. intros z Z. apply H. apply in_or_app. now right.
Qed.
Lemma wires_stay check near c idx i c' :
  in_order c -> fit check (c_heap c) (c_grid c) i -> reports near (c_heap c) (c_grid c ++ leaves i) -> new_id c i ->
  wires_inside c -> local i -> insert check near c idx true true i = Ok c' -> wires_inside c'.
Proof.
  intros O F R N W LO E. destruct (insert_ok check near c idx i O F R N) as (into & c1 & E1 & IN & G & I1 & _).
  rewrite E in E1. injection E1 as <-. unfold wires_inside. rewrite I1.
  assert (Q : forall o, In o (leaves i) -> match into o with Some x => In x (c_grid c') | None => In o (c_grid c') end).
  { intros o I. destruct (into o) as [x|] eqn:X; rewrite G; apply in_or_app.
    - left. exact (proj1 (proj1 (IN o I x) X)).
    - right. apply filter_In. now rewrite X. }
  assert (B : incl (c_grid c) (c_grid c')) by (rewrite G; intros x K; apply in_or_app; now left).
  assert (PI : forall j, (forall o, In o (refs j) -> In o (c_grid c')) -> incl (flat_map refs (py_insert (c_items c) idx j)) (c_grid c')).
  { intros j H o I. apply in_flat_map in I as (k & K & I). apply TileList_Proofs.py_insert_in in K as [->|K]; [now apply H|].
    apply B, W. apply in_flat_map. now exists k. }
  destruct i as [o|].
  - destruct (into o); [intros x K; apply B, W; exact K|]. apply PI. intros x [].
  - apply PI. apply (refs_thin into _ (fun x => In x (c_grid c'))); assumption.
Qed.

(** ** Witnesses *)
Definition everything (grid : list nat) (o : nat) : list nat := grid.
Lemma everything_reports h all : reports everything h all.
Proof. intros grid o _ _. split; [intros x I; exact I|]. intros _ x I _. exact I. Qed.
Definition at_ (p : Q * Q) (e : ent) : ent := mkEnt (e_class e) p (e_id e) (e_validates e) (e_root e).
Definition battery (tags : list (pystr * val)) : ent := accumulator (str "normal") charge tags.
Definition tag : list (pystr * val) := [(str "a", VInt 1)].
Lemma tag_wf : wf (VMap tag).
Proof. cbn. repeat split; repeat constructor; cbn; tauto. Qed.
Lemma battery_fit p t : wf (VMap t) -> sound (at_ p (battery t)) /\ controlled (at_ p (battery t)) /\ forall b, accepted lax b (at_ p (battery t)).
Proof.
  intro W. split; [exact (accumulator_sound (str "normal") charge t charge_wf W)|].
  split; [exact (accumulator_controlled (str "normal") t)|]. intro b. apply lax_accepted; discriminate.
Qed.
(** Objects 0 and 1 are in one place, 2 in another. *)
Definition three : heap := fun o =>
  match o with
  | 0%nat => battery []
  | 1%nat => battery tag
  | _ => at_ (5, 5)%Q (battery [])
  end.
Lemma three_fit o : sound (three o) /\ controlled (three o) /\ forall b, accepted lax b (three o).
Proof.
  destruct o as [|[|o]].
  - exact (battery_fit (1, 1)%Q [] empty_wf).
  - exact (battery_fit (1, 1)%Q tag tag_wf).
  - exact (battery_fit (5, 5)%Q [] empty_wf).
Qed.
Lemma three_apart o : (2 <= o)%nat -> forall x, (x < 2)%nat -> ~ same_place (three x) (three o) /\ ~ same_place (three o) (three x).
Proof.
  intros L x M. destruct o as [|[|o]]; [lia|lia|]. destruct x as [|[|x]]; [| |lia];
    (split; intros (_ & _ & H & _); vm_compute in H; discriminate).
Qed.
Definition nothing (h : heap) : coll := mkColl h [] [].
Lemma nothing_in_order h : in_order (nothing h).
Proof. unfold in_order, nothing. cbn. repeat split; try constructor; try tauto. intros x y []. Qed.
(** Only object 0. *)
Definition first : coll := mkColl three [0%nat] [One 0].
Lemma first_in_order : in_order first.
Proof.
  unfold in_order, first. cbn. repeat split; try tauto.
  - constructor; [intros []|constructor].
  - constructor; [intros []|constructor].
  - intros x y [<-|[]] [<-|[]] _. reflexivity.
  - destruct H as [<-|[]]. apply (three_fit 0).
  - destruct H as [<-|[]]. apply (three_fit 0).
Qed.
Definition cable (a b : nat) : wire := (WRef (Some a), 1%Z, WRef (Some b), 1%Z).
(** A group of 1 and 2 with a wire between them. *)
Definition pair : item := Many None [cable 1 2] [One 1; One 2].
Definition nested : item := Many None [cable 1 2] [Many None [] [One 1]; One 2].
Lemma apart_12 : apart three [1%nat; 2%nat].
Proof.
  intros x y [<-|[<-|[]]] [<-|[<-|[]]] P; try reflexivity.
  - exfalso. exact (proj1 (three_apart 2 ltac:(lia) 1%nat ltac:(lia)) P).
  - exfalso. exact (proj2 (three_apart 2 ltac:(lia) 1%nat ltac:(lia)) P).
Qed.
Lemma cable_associated a b : associated [cable a b].
Proof. constructor; [split; discriminate|constructor]. Qed.
Lemma accumulator_wired : wired (str "Accumulator").
Proof. eexists. split; [reflexivity|]. left. vm_compute. tauto. Qed.
Lemma three_wired o : wired (e_class (three o)).
Proof. destruct o as [|[|o]]; exact accumulator_wired. Qed.
Lemma pair_fit : fit lax three [0%nat] pair.
Proof.
  split; [cbn; repeat constructor; cbn; intuition discriminate|]. split; [intros o H K; cbn in H, K; lia|].
  split; [exact apart_12|]. split; [intros o _; apply three_fit|].
  apply tidy_many. split; [apply cable_associated|]. split; [intros; apply three_wired|repeat constructor].
Qed.
Lemma nested_fit : fit lax three [0%nat] nested.
Proof.
  split; [cbn; repeat constructor; cbn; intuition discriminate|]. split; [intros o H K; cbn in H, K; lia|].
  split; [exact apart_12|]. split; [intros o _; apply three_fit|].
  apply tidy_many. split; [apply cable_associated|]. split; [intros; apply three_wired|].
  constructor; [|repeat constructor]. apply tidy_many. split; [constructor|]. split; [intros; apply three_wired|repeat constructor].
Qed.

(** A wire of the outer group is left leading to the entity that is gone. *)
Lemma wire_lost : exists c i c', in_order c /\ fit lax (c_heap c) (c_grid c) i /\
  reports everything (c_heap c) (c_grid c ++ leaves i) /\ new_id c i /\ wires_inside c /\ incl (refs i) (leaves i) /\
  insert lax everything c 1 true true i = Ok c' /\ ~ wires_inside c'.
Proof.
  exists first, nested. eexists. split; [exact first_in_order|]. split; [exact nested_fit|].
  split; [apply everything_reports|]. split; [intros s H; discriminate H|]. split; [intros x []|].
  split; [intros x H; exact H|]. split; [vm_compute; reflexivity|].
  intro H. assert (X : In 1%nat [0; 2]%nat) by (apply H; vm_compute; tauto). cbn in X. intuition discriminate.
Qed.

(** Of two members in the same place the wrong one is removed from the group. *)
Lemma wrong_removed : exists h l c', 
  (forall o, In o l -> sound (h o) /\ controlled (h o) /\ forall b, accepted lax b (h o)) /\ NoDup l /\
  insert lax everything (nothing h) 0 true true (Many None [] (map One l)) = Ok c' /\
  (exists o, In o (c_grid c') /\ ~ In o (all_leaves (c_items c'))) /\
  (exists o, In o (all_leaves (c_items c')) /\ ~ In o (c_grid c')).
Proof.
  exists three, [0; 1]%nat. eexists. split; [intros o _; apply three_fit|].
  split; [repeat constructor; cbn; intuition discriminate|].
  split; [vm_compute; reflexivity|]. split.
  - exists 0%nat. split; [vm_compute; tauto|]. cbn. intuition discriminate.
  - exists 1%nat. split; [vm_compute; tauto|]. cbn. intuition discriminate.
Qed.

Lemma insert_exact check near c idx i :
  in_order c -> fit check (c_heap c) (c_grid c) i -> reports near (c_heap c) (c_grid c ++ leaves i) -> new_id c i ->
  exists into c', insert check near c idx true true i = Ok c' /\
    (forall o, In o (leaves i) -> forall x, into o = Some x <-> In x (c_grid c) /\ same_place (c_heap c x) (c_heap c o)) /\
    c_grid c' = c_grid c ++ filter (fun o => match into o with None => true | Some _ => false end) (leaves i) /\
    c_items c' = (match i with
                  | One o => match into o with Some _ => c_items c | None => py_insert (c_items c) idx i end
                  | Many _ _ _ => py_insert (c_items c) idx (thin into i)
                  end) /\
    (forall o x, In o (leaves i) -> into o = Some x -> took_over (c_heap c x) (c_heap c o) (c_heap c' x)) /\
    (forall x, (forall o, In o (leaves i) -> into o <> Some x) -> c_heap c' x = c_heap c x) /\
    in_order c'.
Proof.
  intros O F R N. destruct (insert_ok check near c idx i O F R N) as (into & c' & A & B & C & D & E & G & H & _).
  exists into, c'. repeat (split; [assumption|]). assumption.
Qed.
Lemma again check near c idx i c' idx2 i2 :
  in_order c -> fit check (c_heap c) (c_grid c) i -> reports near (c_heap c) (c_grid c ++ leaves i) -> new_id c i ->
  insert check near c idx true true i = Ok c' ->
  fit check (c_heap c') (c_grid c') i2 -> reports near (c_heap c') (c_grid c' ++ leaves i2) -> new_id c' i2 ->
  (forall o2, In o2 (leaves i2) -> exists o, In o (leaves i) /\ c_heap c' o2 = c_heap c o) ->
  exists c'', insert check near c' idx2 true true i2 = Ok c'' /\
    c_grid c'' = c_grid c' /\
    (forall x, same_entity (c_heap c' x) (c_heap c'' x)) /\
    match i2 with
    | One _ => c_items c'' = c_items c'
    | Many _ _ _ => exists g, c_items c'' = py_insert (c_items c') idx2 g /\ leaves g = []
    end.
Proof.
  intros O F R N E. destruct (insert_ok check near c idx i O F R N) as (into & c1 & A & B & C & D & T & G & H & V).
  rewrite E in A. injection A as <-. pose proof F as (_ & F2 & _ & F4 & _).
  apply (insert_again check near c idx i into); try assumption. intros o I. now apply F4.
Qed.
Lemma history' check near l c :
  in_order c -> Forall (fun p => fit check (c_heap c) (c_grid c) (snd p)) l -> NoDup (all_leaves (map snd l)) ->
  reports near (c_heap c) (c_grid c ++ all_leaves (map snd l)) ->
  insert_all check near c l = Err DuplicateIDError \/
  exists c', insert_all check near c l = Ok c' /\ in_order c' /\
    incl (c_grid c) (c_grid c') /\ incl (c_grid c') (c_grid c ++ all_leaves (map snd l)) /\
    (forall x, (forall o, In o (all_leaves (map snd l)) -> ~ same_place (c_heap c x) (c_heap c o)) -> c_heap c' x = c_heap c x) /\
    (forall o, In o (all_leaves (map snd l)) -> exists x, In x (c_grid c') /\ same_place (c_heap c' x) (c_heap c o)) /\
    (forall l1 p l2 o, l = l1 ++ p :: l2 -> In o (leaves (snd p)) ->
       (forall o', In o' (all_leaves (map snd l2)) -> ~ same_place (c_heap c o) (c_heap c o')) ->
       exists x, In x (c_grid c') /\ same_place (c_heap c' x) (c_heap c o) /\
         forall f, In f (fields_of (e_class (c_heap c o))) -> stays (e_class (c_heap c o)) f = false ->
           get (e_root (c_heap c' x)) f = get (e_root (c_heap c o)) f).
Proof.
  intros O F N R. destruct (history check near l c O F N R) as [D|(c' & A & B & C & D & _ & E & G & H)]; [now left|right].
  exists c'. repeat (split; [assumption|]). exact H.
Qed.
Lemma id_taken check near c idx m i j s : In j (c_items c) -> id_of (c_heap c) j = Some s -> s <> [] ->
  id_of (c_heap c) i = Some s -> insert check near c idx true m i = Err DuplicateIDError.
Proof.
  intros J E N E'. unfold insert. cbn [negb andb].
  destruct (taken_id c (id_of (c_heap c) i)) eqn:T; [reflexivity|].
  exfalso. exact (taken_new c i T s E' N j J E).
Qed.
Lemma no_copy check near c idx i : insert check near c idx false true i = Err ValueError.
Proof. reflexivity. Qed.
Lemma uncopied check near c idx i : insert check near c idx false false i = insert check near c idx true false i.
Proof. reflexivity. Qed.
