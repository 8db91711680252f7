(** Proofs about comparing and merging entities (C64). *)
From Coq Require Import ZArith QArith String List Bool Lia.
From Verif Require Import Common Dict Trim_Model Trim_Proofs Trim_Classes Wires_Model Merge_Model Merge_Classes Merge_Spec.
Import ListNotations.
Local Open Scope string_scope.
Local Open Scope list_scope.

(** ** Dictionaries and values *)
Lemma get_set {A} (d : list (pystr * A)) k v k' : get (set d k v) k' = if pystr_eqb k k' then Some v else get d k'.
Proof. exact (dget_dset pystr_eqb pystr_eqb_eq d k v k'). Qed.
Lemma get_set_same {A} (d : list (pystr * A)) k v : get (set d k v) k = Some v.
Proof. rewrite get_set. now rewrite pystr_eqb_refl. Qed.
Lemma set_id {A} (d : list (pystr * A)) k v : get d k = Some v -> set d k v = d.
Proof.
  unfold get, set. induction d as [|[k' x] d IH]; [discriminate|]. cbn [dget dset].
  destruct (pystr_eqb k' k) eqn:E; intro H.
  - injection H as ->. apply pystr_eqb_eq in E. now subst.
  - now rewrite IH.
Qed.

Lemma items_sym d e :
  NoDup (map fst d) -> NoDup (map fst e) -> List.length d = List.length e ->
  Forall (fun kv => forall b, wf b -> py_eq (snd kv) b = true -> py_eq b (snd kv) = true) d ->
  Forall (fun kv => wf (snd kv)) e ->
  items_eq d e = true -> items_eq e d = true.
Proof.
  intros N M L H W A. unfold items_eq in *. rewrite forallb_forall in *. rewrite Forall_forall in *.
  assert (INC : incl (map fst d) (map fst e)).
  { intros k J. apply in_map_iff in J as ((k' & x) & <- & J). specialize (A _ J). cbn [fst snd] in *.
    destruct (get e k') as [y|] eqn:E; [|discriminate]. apply get_in in E. apply in_map_iff. now exists (k', y). }
  assert (INC' : incl (map fst e) (map fst d)).
  { apply NoDup_length_incl; [exact N| |exact INC]. rewrite !map_length. apply Nat.eq_le_incl. now symmetry. }
  intros [k y] J. cbn [fst snd].
  assert (K : In k (map fst d)) by (apply INC'; apply in_map_iff; now exists (k, y)).
  apply in_map_iff in K as ((k' & x) & E & K). cbn [fst] in E. subst k'.
  rewrite (in_get d k x N K). specialize (A _ K). cbn [fst snd] in A. rewrite (in_get e k y M J) in A.
  exact (H _ K y (W _ J) A).
Qed.
Lemma Qeq_bool_sym p q : Qeq_bool p q = true -> Qeq_bool q p = true.
Proof. rewrite !Qeq_bool_iff. intro H. now rewrite H. Qed.

Lemma py_eq_sym a b : wf a -> wf b -> py_eq a b = true -> py_eq b a = true.
Proof.
  intro WA. revert b. induction a as [|x|x|x|s|l IH|d IH|k f x IHf IHx] using val_ind'; intros b WB A.
  - destruct b; try discriminate. reflexivity.
  - destruct b; try discriminate; cbn [py_eq num_of] in *; now apply Qeq_bool_sym.
  - destruct b; try discriminate; cbn [py_eq num_of] in *; now apply Qeq_bool_sym.
  - destruct b; try discriminate; cbn [py_eq num_of] in *; now apply Qeq_bool_sym.
  - destruct b; try discriminate. cbn in *. apply pystr_eqb_eq in A. subst. apply pystr_eqb_refl.
  - destruct b as [| | | | |m| |]; try discriminate. rewrite py_eq_seq in *. apply wf_seq in WA. apply wf_seq in WB.
    revert m WB A. induction IH as [|x l Hx _ IHl]; intros [|y m] WB A; try discriminate; [reflexivity|].
    cbn in *. apply Bool.andb_true_iff in A as [A1 A2]. inversion WA; inversion WB; subst.
    rewrite Hx by assumption. cbn. now apply IHl.
  - destruct b as [| | | | | |e|]; try discriminate. rewrite py_eq_map in *.
    apply Bool.andb_true_iff in A as [A1 A2]. apply Nat.eqb_eq in A1.
    apply wf_map in WA as [N WA]. apply wf_map in WB as [M WB].
    apply Bool.andb_true_iff. split; [apply Nat.eqb_eq; congruence|].
    apply items_sym; try assumption. rewrite Forall_forall in *. intros kv J. now apply IH; [|apply WA].
  - destruct b as [| | | | | | |k' f' x']; try discriminate. rewrite py_eq_rec in *. rewrite !Bool.andb_true_iff in *.
    destruct A as [[[[A1 A2] A3] A4] A5]. apply pystr_eqb_eq in A1. apply Nat.eqb_eq in A2. apply Nat.eqb_eq in A4. subst.
    apply wf_rec in WA as (N1 & W1 & N2 & W2). apply wf_rec in WB as (M1 & V1 & M2 & V2).
    rewrite pystr_eqb_refl, A2, A4, !Nat.eqb_refl.
    rewrite (items_sym f f'), (items_sym x x'); try assumption; try (repeat split; fail);
      rewrite Forall_forall in *; intros kv J; [apply IHx|apply IHf]; auto.
Qed.

(** ** Methods flattened along the resolution order *)
Section Flat.
  Variable check : pystr -> bool -> pystr -> val -> result val.
  Variable mt : list (pystr * methods).

  Fixpoint flat_merge (mro : list pystr) : list stmt :=
    match mro with
    | [] => [Super]
    | k :: rest =>
        match method mt m_merge k with
        | None => flat_merge rest
        | Some l => flat_map (fun s => match s with Super => flat_merge rest | _ => [s] end) l
        end
    end.
  Definition stuck (st : mstate) : moutcome := (st, Some AttributeError).
  Lemma body_app self other o super l1 l2 st :
    body check self other o super (l1 ++ l2) st =
    match body check self other o super l1 st with
    | (st', None) => body check self other o super l2 st'
    | r => r
    end.
  Proof.
    revert st. induction l1 as [|s l1 IH]; intro st; [reflexivity|]. cbn [app body].
    destruct (step check self other o super s st) as [st' [x|]]; [reflexivity|apply IH].
  Qed.
  Lemma merge_flat self other o mro st :
    merge_along check mt self other o mro st = body check self other o stuck (flat_merge mro) st.
  Proof.
    revert st. induction mro as [|k rest IH]; intro st; [reflexivity|]. cbn [merge_along flat_merge].
    destruct (method mt m_merge k) as [l|]; [|apply IH].
    revert st. induction l as [|s l IHl]; intro st; [reflexivity|]. cbn [flat_map body].
    rewrite body_app. destruct s as [|a|]; cbn [step].
    - rewrite IH. destruct (body _ _ _ _ _ (flat_merge rest) st) as [st' [x|]]; [reflexivity|apply IHl].
    - cbn [body step]. destruct (read o a); [|reflexivity].
      destruct (write check (fst st) a a0) as [e [x|]]; [reflexivity|apply IHl].
    - cbn [body step]. destruct (snd st) as [ws|]; [|apply IHl].
      destruct (redirect self other ws) as [ws' [x|]]; [reflexivity|apply IHl].
  Qed.

  Fixpoint flat_test (sel : methods -> option (list test)) (mro : list pystr) : list test :=
    match mro with
    | [] => [TSuper]
    | k :: rest =>
        match method mt sel k with
        | None => flat_test sel rest
        | Some l => flat_map (fun s => match s with TSuper => flat_test sel rest | _ => [s] end) l
        end
    end.
  Lemma conj_app super e o l1 l2 :
    conj super e o (l1 ++ l2) =
    (let* b := conj super e o l1 in if b then conj super e o l2 else Ok false).
  Proof.
    induction l1 as [|t l1 IH]; [reflexivity|]. cbn [app conj].
    destruct (holds super e o t) as [[]|]; cbn [bind]; [exact IH|reflexivity|reflexivity].
  Qed.
  Lemma test_flat sel e o mro :
    test_along mt sel e o mro = conj (Err AttributeError) e o (flat_test sel mro).
  Proof.
    induction mro as [|k rest IH]; [reflexivity|]. cbn [test_along flat_test].
    destruct (method mt sel k) as [l|]; [|exact IH].
    induction l as [|s l IHl]; [reflexivity|]. cbn [flat_map conj].
    rewrite conj_app. destruct s; cbn [holds conj bind]; rewrite <- ?IHl.
    - now rewrite IH.
    - now destruct (pystr_eqb _ _).
    - now destruct (pos_eqb _ _).
    - now destruct (id_eqb _ _).
    - destruct (read e a) as [v|]; [|reflexivity]. cbn [bind]. destruct (read o a) as [w|]; [|reflexivity]. cbn [bind].
      now destruct (py_eq v w).
  Qed.
End Flat.

(** ** What the tables amount to *)
Definition merges (k : pystr) : list stmt := flat_merge methods_table (mro bases_table k).
Definition tests (sel : methods -> option (list test)) (k : pystr) : list test :=
  flat_test methods_table sel (mro bases_table k).

Definition cb : pystr := str "control_behavior".
(** Copies of fields only of those that do not stay; signals only after the
    control behavior, and of fields it has. *)
Fixpoint merges_ok (k : pystr) (done : list pystr) (l : list stmt) : bool :=
  match l with
  | [] => true
  | Super :: _ => false
  | Copy (Fld f) :: l' => mem f (fields_of k) && negb (stays k f) && merges_ok k (f :: done) l'
  | Copy (Sub f g) :: l' => pystr_eqb f cb && mem f done && mem g (signals k) && merges_ok k done l'
  | Rewire :: l' => merges_ok k done l'
  end.
Definition place_eqb (a b : place) : bool :=
  match a, b with
  | Fld f, Fld g => pystr_eqb f g
  | Sub f g, Sub f' g' => pystr_eqb f f' && pystr_eqb g g'
  | _, _ => false
  end.
Definition is_copy (f : pystr) (s : stmt) : bool := match s with Copy (Fld g) => pystr_eqb f g | _ => false end.
Definition is_rewire (s : stmt) : bool := match s with Rewire => true | _ => false end.
Definition is_wired (k : pystr) : bool :=
  match get bases_table k with
  | Some l => mem (str "CircuitConnectableMixin") l || mem (str "PowerConnectableMixin") l
  | None => false
  end.
Definition test_ok (k : pystr) (skip : pystr -> bool) (t : test) : bool :=
  match t with
  | TSuper => false
  | TAttr (Fld f) => mem f (fields_of k) && negb (skip f)
  | TAttr (Sub f g) => pystr_eqb f cb && mem f (fields_of k) && negb (skip f) && mem g (signals k)
  | _ => true
  end.
Definition is_test (f : pystr) (t : test) : bool := match t with TAttr (Fld g) => pystr_eqb f g | _ => false end.
Definition is_type (t : test) : bool := match t with TType => true | _ => false end.
Definition is_position (t : test) : bool := match t with TPosition => true | _ => false end.
Definition is_id (t : test) : bool := match t with TId => true | _ => false end.
Definition tests_ok (k : pystr) (skip : pystr -> bool) (l : list test) : bool :=
  match l with TType :: _ => true | _ => false end &&
  forallb (test_ok k skip) l && existsb is_position l && existsb is_id l &&
  forallb (fun f => skip f || existsb (is_test f) l) (fields_of k).
(** Mergability looks at the name and the direction only. *)
Definition aside (f : pystr) : bool := negb (mem f [str "name"; str "direction"; str "orientation"]).

Definition class_ok (k : pystr) : bool :=
  merges_ok k [] (merges k) &&
  forallb (fun f => stays k f || existsb (is_copy f) (merges k)) (fields_of k) &&
  Bool.eqb (existsb is_rewire (merges k)) (is_wired k) &&
  tests_ok k (overlooked k) (tests m_eq k) &&
  tests_ok k aside (tests m_mergable k) &&
  mem (str "name") (fields_of k) && mem (str "quality") (fields_of k) &&
  distinct (fields_of k).
Lemma classes_ok : forallb class_ok classes = true.
Proof. vm_compute. reflexivity. Qed.

Lemma class_facts k : In k classes -> class_ok k = true.
Proof. intro H. exact (proj1 (forallb_forall _ _) classes_ok k H). Qed.
Ltac facts k H :=
  let F := fresh "F" in
  pose proof (class_facts k H) as F; unfold class_ok in F;
  rewrite !Bool.andb_true_iff in F;
  destruct F as [[[[[[[FM FC] FW] FE] FG] FN] FQ] FD].

(** ** Tests *)
Lemma id_eqb_iff a b : id_eqb a b = true <-> a = b.
Proof.
  destruct a as [x|], b as [y|]; cbn; try (split; [discriminate|congruence]); [|now split].
  rewrite pystr_eqb_eq. split; congruence.
Qed.
Lemma pos_eqb_iff p q : pos_eqb p q = true <-> (fst p == fst q)%Q /\ (snd p == snd q)%Q.
Proof. unfold pos_eqb. now rewrite Bool.andb_true_iff, !Qeq_bool_iff. Qed.

(** Reading a field of a sound entity. *)
Lemma sound_read e f : sound e -> In f (fields_of (e_class e)) ->
  exists v, read e (Fld f) = Ok v /\ get (e_root e) f = Some v /\ wf v.
Proof. intros (_ & S) I. destruct (S f I) as (v & G & W). exists v. cbn [read]. now rewrite G. Qed.
Lemma controlled_read e g : controlled e -> In g (signals (e_class e)) ->
  exists c fs ex v, get (e_root e) cb = Some (VRec c fs ex) /\ get fs g = Some v /\ read e (Sub cb g) = Ok v.
Proof.
  intros C I. destruct (C g I) as (c & fs & ex & v & G & H). exists c, fs, ex, v.
  split; [exact G|]. split; [exact H|]. cbn [read]. unfold cb. rewrite G. now rewrite H.
Qed.

Definition passes (e o : ent) (t : test) : Prop := holds (Err AttributeError) e o t = Ok true.
Lemma conj_true e o l :
  (forall t, In t l -> exists b, holds (Err AttributeError) e o t = Ok b) ->
  exists b, conj (Err AttributeError) e o l = Ok b /\ (b = true <-> Forall (passes e o) l).
Proof.
  induction l as [|t l IH]; intro H; [exists true; split; [reflexivity|now split; constructor]|].
  destruct (H t (or_introl eq_refl)) as (b & B). cbn [conj]. rewrite B. cbn [bind].
  destruct b.
  - destruct IH as (b' & C & D); [intros t' I; apply H; now right|]. exists b'. split; [exact C|].
    rewrite D, Forall_cons_iff. unfold passes at 2. rewrite B. tauto.
  - exists false. split; [reflexivity|]. rewrite Forall_cons_iff. unfold passes at 1. rewrite B.
    split; [discriminate|intros [J _]; discriminate].
Qed.
Lemma conj_type e o l : e_class e <> e_class o ->
  match l with TType :: _ => true | _ => false end = true -> conj (Err AttributeError) e o l = Ok false.
Proof.
  intros N H. destruct l as [|[] l]; try discriminate. cbn [conj holds bind].
  destruct (pystr_eqb (e_class e) (e_class o)) eqn:E; [apply pystr_eqb_eq in E; contradiction|reflexivity].
Qed.

Lemma tests_sound skip e o l :
  sound e -> sound o -> e_class e = e_class o -> controlled e -> controlled o ->
  tests_ok (e_class e) skip l = true ->
  exists b, conj (Err AttributeError) e o l = Ok b /\
    (b = true <-> (fst (e_pos e) == fst (e_pos o))%Q /\ (snd (e_pos e) == snd (e_pos o))%Q /\
                  e_id e = e_id o /\
                  (forall f, In f (fields_of (e_class e)) -> skip f = false -> agree e o f)).
Proof.
  intros SE SO EC CE CO T. unfold tests_ok in T. rewrite !Bool.andb_true_iff in T. destruct T as [[[[T1 T2] T3] T4] T5].
  rewrite forallb_forall in T2. apply existsb_exists in T3 as (tp & IP & HP). apply existsb_exists in T4 as (ti & II & HI).
  rewrite forallb_forall in T5.
  destruct (conj_true e o l) as (b & B & C).
  - intros t I. specialize (T2 t I). destruct t as [| | | |[f|f g]]; cbn [test_ok] in T2; try discriminate; cbn [holds]; try now eexists.
    + apply Bool.andb_true_iff in T2 as [M _]. apply mem_iff in M.
      destruct (sound_read e f SE M) as (v & R & _). destruct (sound_read o f SO) as (w & R' & _); [now rewrite <- EC|].
      rewrite R, R'. cbn [bind]. now eexists.
    + rewrite !Bool.andb_true_iff in T2. destruct T2 as [[[F _] _] G]. apply pystr_eqb_eq in F. subst f. apply mem_iff in G.
      destruct (controlled_read e g CE G) as (? & ? & ? & ? & _ & _ & R).
      destruct (controlled_read o g CO) as (? & ? & ? & ? & _ & _ & R'); [now rewrite <- EC|].
      rewrite R, R'. cbn [bind]. now eexists.
  - exists b. split; [exact B|]. rewrite C. rewrite Forall_forall. split.
    + intro H. destruct tp; try discriminate. destruct ti; try discriminate.
      pose proof (H _ IP) as P. cbn in P. injection P as P. apply pos_eqb_iff in P as [P1 P2].
      pose proof (H _ II) as Q. cbn in Q. injection Q as Q. apply id_eqb_iff in Q.
      split; [exact P1|]. split; [exact P2|]. split; [exact Q|].
      intros f I S. specialize (T5 f I). rewrite S in T5. cbn in T5. apply existsb_exists in T5 as (t & J & K).
      destruct t as [| | | |[f'|]]; try discriminate. apply pystr_eqb_eq in K. subst f'.
      specialize (H _ J). unfold passes in H. cbn [holds] in H.
      destruct (sound_read e f SE I) as (v & R & G & _). destruct (sound_read o f SO) as (w & R' & G' & _); [now rewrite <- EC|].
      rewrite R, R' in H. cbn [bind] in H. injection H as H. exists v, w. auto.
    + intros (P1 & P2 & Q & A) t I. specialize (T2 t I).
      destruct t as [| | | |[f|f g]]; cbn [test_ok] in T2; try discriminate; unfold passes; cbn [holds].
      * rewrite EC. now rewrite pystr_eqb_refl.
      * f_equal. now apply pos_eqb_iff.
      * f_equal. now apply id_eqb_iff.
      * apply Bool.andb_true_iff in T2 as [M N]. apply mem_iff in M. apply Bool.negb_true_iff in N.
        destruct (A f M N) as (v & w & G & G' & PE). cbn [read]. rewrite G, G'. cbn [bind]. now rewrite PE.
      * rewrite !Bool.andb_true_iff in T2. destruct T2 as [[[F M] N] G]. apply pystr_eqb_eq in F. subst f.
        apply mem_iff in G. apply mem_iff in M. apply Bool.negb_true_iff in N.
        destruct (A cb M N) as (v & w & X & X' & PE).
        destruct (controlled_read e g CE G) as (c & fs & ex & y & GE & GF & R).
        destruct (controlled_read o g CO) as (c' & fs' & ex' & y' & GE' & GF' & R'); [now rewrite <- EC|].
        rewrite R, R'. cbn [bind]. f_equal. rewrite GE in X. rewrite GE' in X'. injection X as <-. injection X' as <-.
        rewrite py_eq_rec in PE. rewrite !Bool.andb_true_iff in PE. destruct PE as [[[[_ _] P] _] _].
        unfold items_eq in P. rewrite forallb_forall in P. specialize (P _ (get_in _ _ _ GF)). cbn [fst snd] in P.
        now rewrite GF' in P.
Qed.

Lemma equal_spec e o : sound e -> sound o -> controlled e -> controlled o ->
  exists b, equal methods_table bases_table e o = Ok b /\
    (b = true <-> e_class e = e_class o /\
                  (fst (e_pos e) == fst (e_pos o))%Q /\ (snd (e_pos e) == snd (e_pos o))%Q /\
                  e_id e = e_id o /\
                  (forall f, In f (fields_of (e_class e)) -> overlooked (e_class e) f = false -> agree e o f)).
Proof.
  intros SE SO CE CO. pose proof (proj1 SE) as K. facts (e_class e) K.
  unfold equal. rewrite test_flat. fold (tests m_eq (e_class e)).
  destruct (pystr_eq_dec (e_class e) (e_class o)) as [EC|N].
  - destruct (tests_sound (overlooked (e_class e)) e o _ SE SO EC CE CO FE) as (b & B & C).
    exists b. split; [exact B|]. rewrite C. tauto.
  - exists false. split.
    + apply conj_type; [exact N|]. unfold tests_ok in FE. rewrite !Bool.andb_true_iff in FE. tauto.
    + split; [discriminate|]. tauto.
Qed.

(** Mergability does not look into the control behavior. *)
Lemma mergable_flat k : In k classes ->
  forallb (fun t => match t with TAttr (Sub _ _) => false | _ => true end) (tests m_mergable k) = true.
Proof.
  intro H. revert k H. apply forallb_forall. vm_compute. reflexivity.
Qed.

Lemma mergable_spec e o : sound e -> sound o ->
  exists b, mergable methods_table bases_table e o = Ok b /\ (b = true <-> same_place e o).
Proof.
  intros SE SO. pose proof (proj1 SE) as K. facts (e_class e) K.
  unfold mergable. rewrite test_flat. fold (tests m_mergable (e_class e)).
  destruct (pystr_eq_dec (e_class e) (e_class o)) as [EC|N].
  - pose proof (mergable_flat _ K) as MF. rewrite forallb_forall in MF.
    unfold tests_ok in FG. rewrite !Bool.andb_true_iff in FG. destruct FG as [[[[T1 T2] T3] T4] T5].
    rewrite forallb_forall in T2. apply existsb_exists in T3 as (tp & IP & HP). apply existsb_exists in T4 as (ti & II & HI).
    rewrite forallb_forall in T5. destruct tp; try discriminate. destruct ti; try discriminate.
    set (l := tests m_mergable (e_class e)) in *.
    destruct (conj_true e o l) as (b & B & C).
    + intros t I. specialize (T2 t I). specialize (MF t I).
      destruct t as [| | | |[f|f g]]; cbn [test_ok] in T2; try discriminate; cbn [holds]; try now eexists.
      apply Bool.andb_true_iff in T2 as [M _]. apply mem_iff in M.
      destruct (sound_read e f SE M) as (v & R & _). destruct (sound_read o f SO) as (w & R' & _); [now rewrite <- EC|].
      rewrite R, R'. cbn [bind]. now eexists.
    + exists b. split; [exact B|]. rewrite C. rewrite Forall_forall.
      assert (AG : forall f, In f (fields_of (e_class e)) -> aside f = false -> (forall t, In t l -> passes e o t) -> agree e o f).
      { intros f I S H. specialize (T5 f I). rewrite S in T5. cbn in T5. apply existsb_exists in T5 as (t & J & Kt).
        destruct t as [| | | |[f'|]]; try discriminate. apply pystr_eqb_eq in Kt. subst f'.
        specialize (H _ J). unfold passes in H. cbn [holds] in H.
        destruct (sound_read e f SE I) as (v & R & G & _). destruct (sound_read o f SO) as (w & R' & G' & _); [now rewrite <- EC|].
        rewrite R, R' in H. cbn [bind] in H. injection H as H. exists v, w. auto. }
      split.
      * intro H. pose proof (H _ IP) as P. cbn in P. injection P as P. apply pos_eqb_iff in P as [P1 P2].
        pose proof (H _ II) as Q. cbn in Q. injection Q as Q. apply id_eqb_iff in Q.
        unfold same_place. split; [exact EC|]. split; [apply AG; [now apply mem_iff|reflexivity|exact H]|].
        split; [exact P1|]. split; [exact P2|]. split; [exact Q|].
        intros f [<-|[<-|[]]] I; apply AG; try assumption; reflexivity.
      * intros (_ & AN & P1 & P2 & Q & AD) t I. specialize (T2 t I). specialize (MF t I).
        destruct t as [| | | |[f|f g]]; cbn [test_ok] in T2; try discriminate; unfold passes; cbn [holds].
        -- rewrite EC. now rewrite pystr_eqb_refl.
        -- f_equal. now apply pos_eqb_iff.
        -- f_equal. now apply id_eqb_iff.
        -- apply Bool.andb_true_iff in T2 as [M S]. apply mem_iff in M. unfold aside in S. rewrite Bool.negb_involutive in S.
           apply mem_iff in S.
           assert (AG' : agree e o f).
           { destruct S as [<-|S]; [exact AN|]. exact (AD f S M). }
           destruct AG' as (v & w & G & G' & PE). cbn [read]. rewrite G, G'. cbn [bind]. now rewrite PE.
  - exists false. split.
    + apply conj_type; [exact N|]. unfold tests_ok in FG. rewrite !Bool.andb_true_iff in FG. tauto.
    + split; [discriminate|]. intros (E & _). contradiction.
Qed.

(** ** Wires *)
Lemma redirect_ok self other ws : associated ws -> redirect self other ws = (map (moved self other) ws, None).
Proof.
  induction ws as [|[[[a s] b] t] ws IH]; intro A; [reflexivity|]. apply Forall_cons_iff in A as [[HA HB] A'].
  assert (E : forall w, (forall n, w <> WInt n) -> redirect_end self other w = Ok (moved_end self other w)).
  { intros [n|[o|]] H; cbn; [destruct (H n eq_refl)| |reflexivity]. now destruct (Nat.eqb o other). }
  cbn [redirect map moved]. rewrite (E a HA), (E b HB), (IH A'). reflexivity.
Qed.
Lemma moved_again self other w : self <> other -> moved self other (moved self other w) = moved self other w.
Proof.
  intro N. destruct w as [[[a s] b] t]. cbn [moved].
  assert (E : forall w, moved_end self other (moved_end self other w) = moved_end self other w).
  { intros [n|[o|]]; cbn; try reflexivity. destruct (Nat.eqb o other) eqn:X; cbn; [|now rewrite X].
    now destruct (Nat.eqb self other). }
  now rewrite !E.
Qed.
Lemma moved_associated self other ws : associated ws -> associated (map (moved self other) ws).
Proof.
  intro A. induction A as [|[[[a s] b] t] ws [HA HB] _ IH]; [constructor|]. constructor; [|exact IH]. cbn [moved].
  assert (E : forall w, (forall n, w <> WInt n) -> forall n, moved_end self other w <> WInt n).
  { intros [m|[o|]] H n; cbn; [exact (H n)| |discriminate]. now destruct (Nat.eqb o other). }
  now split; apply E.
Qed.
Lemma moved_gone self other ws w : self <> other ->
  In w (map (moved self other) ws) -> ~ In (WRef (Some other)) (ends w).
Proof.
  intros N I J. apply in_map_iff in I as ([[[a s] b] t] & <- & _). cbn in J.
  assert (E : forall w, moved_end self other w <> WRef (Some other)).
  { intros [n|[o|]]; cbn; try discriminate. destruct (Nat.eqb o other) eqn:X; intro H.
    - injection H as H. contradiction.
    - injection H as H. subst. now rewrite Nat.eqb_refl in X. }
  destruct J as [J|[J|[]]]; exact (E _ J).
Qed.

(** ** Merging *)
Section Run.
  Variable check : pystr -> bool -> pystr -> val -> result val.
  Variables self other : nat.

  (** Whatever validation says, the entity keeps its class, place, ID, and the
      fields that stay. *)
  Definition framed (k : pystr) (e e' : ent) : Prop :=
    e_class e' = e_class e /\ e_pos e' = e_pos e /\ e_id e' = e_id e /\ e_validates e' = e_validates e /\
    (forall f, ~ In f (fields_of k) \/ stays k f = true -> get (e_root e') f = get (e_root e) f).
  Lemma framed_refl k e : framed k e e.
  Proof. repeat split. Qed.
  Lemma framed_trans k a b c : framed k a b -> framed k b c -> framed k a c.
  Proof.
    intros (A1 & A2 & A3 & A4 & A5) (B1 & B2 & B3 & B4 & B5).
    unfold framed. rewrite B1, B2, B3, B4. split; [exact A1|]. split; [exact A2|]. split; [exact A3|]. split; [exact A4|].
    intros f H. rewrite (B5 f H). exact (A5 f H).
  Qed.
  Lemma framed_set k e f v : In f (fields_of k) -> stays k f = false -> framed k e (with_root e (set (e_root e) f v)).
  Proof.
    intros I S. repeat split. cbn [with_root e_root]. intros f' H. rewrite get_set. destruct (pystr_eqb f f') eqn:E; [|reflexivity].
    apply pystr_eqb_eq in E. subst f'. destruct H as [H|H]; [contradiction|congruence].
  Qed.
  Lemma write_framed k e f v : In f (fields_of k) -> stays k f = false ->
    framed k e (fst (write check e (Fld f) v)).
  Proof.
    intros I S. cbn [write].
    destruct (if e_validates e || mem f always_checked then check (e_class e) (e_validates e) f v else Ok v); cbn [fst].
    - now apply framed_set.
    - destruct (pystr_eqb f (str "recipe")); [now apply framed_set|apply framed_refl].
  Qed.
  Lemma write_sub_framed k e f g v : In f (fields_of k) -> stays k f = false ->
    framed k e (fst (write check e (Sub f g) v)).
  Proof.
    intros I S. cbn [write].
    destruct (get (e_root e) f) as [[| | | | | | |c fs ex]|]; try apply framed_refl.
    destruct (if e_validates e then check c true g v else Ok v); cbn [fst]; [|apply framed_refl].
    now apply framed_set.
  Qed.

  Lemma body_framed o k l done st :
    (forall f, In f done -> In f (fields_of k) /\ stays k f = false) ->
    merges_ok k done l = true ->
    framed k (fst st) (fst (fst (body check self other o stuck l st))).
  Proof.
    revert done st. induction l as [|s l IH]; intros done st D M; [apply framed_refl|].
    destruct s as [|[f|f g]|]; cbn [merges_ok] in M; [discriminate| | |].
    - rewrite !Bool.andb_true_iff in M. destruct M as [[M1 M2] M3]. apply mem_iff in M1. apply Bool.negb_true_iff in M2.
      cbn [body step]. destruct (read o (Fld f)) as [v|]; [|apply framed_refl].
      pose proof (write_framed k (fst st) f v M1 M2) as W.
      destruct (write check (fst st) (Fld f) v) as [e1 [x|]]; cbn [fst] in *; [exact W|].
      eapply framed_trans; [exact W|].
      apply (IH (f :: done) (e1, snd st)); [|exact M3]. intros f' [<-|J]; [now split|exact (D f' J)].
    - rewrite !Bool.andb_true_iff in M. destruct M as [[[M1 M2] M3] M4]. apply mem_iff in M2. destruct (D f M2) as [D1 D2].
      cbn [body step]. destruct (read o (Sub f g)) as [v|]; [|apply framed_refl].
      pose proof (write_sub_framed k (fst st) f g v D1 D2) as W.
      destruct (write check (fst st) (Sub f g) v) as [e1 [x|]]; cbn [fst] in *; [exact W|].
      eapply framed_trans; [exact W|]. exact (IH done (e1, snd st) D M4).
    - cbn [body step]. destruct (snd st) as [ws|]; [|exact (IH done st D M)].
      destruct (redirect self other ws) as [ws' [x|]]; [apply framed_refl|].
      exact (IH done (fst st, Some ws') D M).
  Qed.

  Lemma merge_framed e o ws : In (e_class e) classes ->
    framed (e_class e) e (fst (fst (merge check methods_table bases_table self other e o ws))).
  Proof.
    intro K. facts (e_class e) K. unfold merge. rewrite merge_flat.
    apply (body_framed o (e_class e) _ [] (e, ws)); [intros f []|exact FM].
  Qed.

  (** With validation letting everything through. *)
  Definition taken (o : ent) (e0 : ent) (done : list pystr) (e : ent) : Prop :=
    e_class e = e_class e0 /\ e_pos e = e_pos e0 /\ e_id e = e_id e0 /\ e_validates e = e_validates e0 /\
    (forall f, get (e_root e) f = if mem f done then get (e_root o) f else get (e_root e0) f).

  Definition wires_after (l : list stmt) (ws : option (list wire)) : option (list wire) :=
    if existsb is_rewire l then option_map (map (moved self other)) ws else ws.

  Lemma body_taken o e0 l done e ws :
    self <> other ->
    e_class e0 = e_class o -> accepted check (e_validates e0) o -> sound o -> controlled o ->
    (forall w, ws = Some w -> associated w) ->
    (forall f, In f done -> In f (fields_of (e_class o))) ->
    merges_ok (e_class o) done l = true ->
    taken o e0 done e ->
    exists e' done',
      body check self other o stuck l (e, ws) = ((e', wires_after l ws), None) /\
      taken o e0 done' e' /\ (forall f, In f done' <-> In f done \/ existsb (is_copy f) l = true).
  Proof.
    intros NE EC (AC1 & AC2 & AC3 & AC4) SO CO. revert done e ws.
    induction l as [|s l IH]; intros done e ws AW D M T.
    - exists e, done. split; [reflexivity|]. split; [exact T|]. intro f. cbn. intuition discriminate.
    - destruct s as [|[f|f g]|]; cbn [merges_ok] in M; [discriminate| | |].
      + rewrite !Bool.andb_true_iff in M. destruct M as [[M1 M2] M3]. apply mem_iff in M1.
        destruct (sound_read o f SO M1) as (v & R & G & _).
        assert (W : write check e (Fld f) v = (with_root e (set (e_root e) f v), None)).
        { cbn [write]. destruct T as (T1 & _ & _ & T4 & _). rewrite T1, T4, EC, (AC1 f v G).
          assert (N : instead_of_none f v = v).
          { unfold instead_of_none. destruct v; try reflexivity.
            destruct (pystr_eqb f (str "items")) eqn:E1; [apply pystr_eqb_eq in E1; subst; contradiction|].
            destruct (pystr_eqb f (str "link_id")) eqn:E2; [apply pystr_eqb_eq in E2; subst; contradiction|]. reflexivity. }
          destruct (e_validates e0 || mem f always_checked); now rewrite N. }
        destruct (IH (f :: done) (with_root e (set (e_root e) f v)) ws AW) as (e' & done' & B & T' & D').
        * intros f' [<-|J]; [exact M1|exact (D f' J)].
        * exact M3.
        * destruct T as (T1 & T2 & T3 & T4 & T5). repeat split; cbn [with_root e_root e_class e_pos e_id e_validates]; try assumption.
          intro f'. rewrite get_set. unfold mem. cbn [existsb].
          destruct (pystr_eqb f f') eqn:E.
          -- apply pystr_eqb_eq in E. subst f'. rewrite pystr_eqb_refl. now rewrite G.
          -- assert (E' : pystr_eqb f' f = false).
             { destruct (pystr_eqb f' f) eqn:X; [|reflexivity]. apply pystr_eqb_eq in X. subst. now rewrite pystr_eqb_refl in E. }
             rewrite E'. exact (T5 f').
        * exists e', done'. split; [|split; [exact T'|]].
          -- cbn [body step]. rewrite R. cbn [fst snd]. rewrite W. cbn [fst snd]. exact B.
          -- intro f'. rewrite D'. cbn [existsb is_copy In]. rewrite Bool.orb_true_iff, pystr_eqb_eq. intuition congruence.
      + rewrite !Bool.andb_true_iff in M. destruct M as [[[M1 M2] M3] M4].
        apply pystr_eqb_eq in M1. subst f. apply mem_iff in M3.
        destruct (controlled_read o g CO M3) as (c & fs & ex & v & G & GF & R).
        assert (GE : get (e_root e) cb = Some (VRec c fs ex)).
        { destruct T as (_ & _ & _ & _ & T5). rewrite T5, M2. exact G. }
        assert (W : write check e (Sub cb g) v = (with_root e (e_root e), None)).
        { cbn [write]. rewrite GE. rewrite (AC2 c fs ex g v G GF).
          unfold has. rewrite GF. replace (if e_validates e then Ok v else Ok v) with (Ok v) by now destruct (e_validates e).
          now rewrite (set_id _ _ _ GF), (set_id _ _ _ GE). }
        destruct (IH done (with_root e (e_root e)) ws AW D M4) as (e' & done' & B & T' & D').
        * destruct T as (T1 & T2 & T3 & T4 & T5). repeat split; assumption.
        * exists e', done'. split; [|split; [exact T'|]].
          -- cbn [body step]. rewrite R. cbn [fst snd]. rewrite W. cbn [fst snd]. exact B.
          -- intro f'. rewrite D'. cbn [existsb is_copy]. now rewrite Bool.orb_false_l.
      + destruct (IH done e (option_map (map (moved self other)) ws)) as (e' & done' & B & T' & D'); try assumption.
        { intros w H. destruct ws as [w0|]; [|discriminate]. injection H as <-. now apply moved_associated, AW. }
        exists e', done'. split; [|split; [exact T'|]].
        * cbn [body step]. unfold wires_after in *. cbn [existsb is_rewire orb snd fst]. destruct ws as [w0|].
          -- rewrite (redirect_ok self other w0 (AW w0 eq_refl)). cbn [option_map] in B. rewrite B.
             destruct (existsb is_rewire l); [|reflexivity]. cbn [option_map]. do 3 f_equal.
             rewrite map_map. rewrite (map_ext _ (moved self other)); [reflexivity|]. intro w. now apply moved_again.
          -- cbn [option_map] in B. rewrite B. now destruct (existsb is_rewire l).
        * exact D'.
  Qed.
End Run.

Lemma wired_iff k : is_wired k = true <-> wired k.
Proof.
  unfold is_wired, wired. destruct (get bases_table k) as [l|].
  - rewrite Bool.orb_true_iff, !mem_iff. split.
    + intro H. now exists l.
    + intros (l' & E & H). injection E as <-. exact H.
  - split; [discriminate|]. intros (l & E & _). discriminate.
Qed.

Lemma merge_spec check self other e o ws :
  self <> other -> sound e -> sound o -> controlled o -> e_class e = e_class o ->
  accepted check (e_validates e) o -> (forall w, ws = Some w -> associated w) ->
  exists e' ws',
    merge check methods_table bases_table self other e o ws = ((e', ws'), None) /\
    e_class e' = e_class e /\ e_pos e' = e_pos e /\ e_id e' = e_id e /\ e_validates e' = e_validates e /\
    (forall f, In f (fields_of (e_class e)) -> stays (e_class e) f = false -> get (e_root e') f = get (e_root o) f) /\
    (forall f, ~ In f (fields_of (e_class e)) \/ stays (e_class e) f = true -> get (e_root e') f = get (e_root e) f) /\
    (wired (e_class e) -> ws' = option_map (map (moved self other)) ws) /\
    (~ wired (e_class e) -> ws' = ws).
Proof.
  intros NE SE SO CO EC AC AW. pose proof (proj1 SE) as K. facts (e_class e) K.
  unfold merge. rewrite merge_flat. fold (merges (e_class e)).
  destruct (body_taken check self other o e (merges (e_class e)) [] e ws) as (e' & done & B & T & D); try assumption.
  - intros f [].
  - now rewrite <- EC.
  - repeat split.
  - exists e', (wires_after self other (merges (e_class e)) ws). split; [exact B|].
    destruct T as (T1 & T2 & T3 & T4 & T5). repeat (split; [assumption|]).
    rewrite forallb_forall in FC. apply Bool.eqb_prop in FW.
    split; [|split; [|split]].
    + intros f I S. specialize (FC f I). rewrite S in FC. cbn in FC. rewrite T5.
      assert (J : In f done) by (apply D; now right). apply mem_iff in J. now rewrite J.
    + pose proof (body_framed check self other o (e_class e) (merges (e_class e)) [] (e, ws)) as FR.
      rewrite B in FR. cbn [fst] in FR. destruct FR as (_ & _ & _ & _ & FR); [intros f []|exact FM|exact FR].
    + intro H. apply wired_iff in H. unfold wires_after. now rewrite FW, H.
    + intro H. unfold wires_after. rewrite FW. destruct (is_wired (e_class e)) eqn:X; [|reflexivity].
      apply wired_iff in X. contradiction.
Qed.

(** ** Consequences *)
Definition meq := equal methods_table bases_table.
Definition mmg := mergable methods_table bases_table.
Lemma equal_iff e o : sound e -> sound o -> controlled e -> controlled o ->
  (meq e o = Ok true <->
     e_class e = e_class o /\
     (fst (e_pos e) == fst (e_pos o))%Q /\ (snd (e_pos e) == snd (e_pos o))%Q /\ e_id e = e_id o /\
     (forall f, In f (fields_of (e_class e)) -> overlooked (e_class e) f = false -> agree e o f)).
Proof.
  intros A B C D. destruct (equal_spec e o A B C D) as (b & E & F). unfold meq. rewrite E, <- F.
  split; [intro H; now injection H|now intros ->].
Qed.
Lemma mergable_iff e o : sound e -> sound o -> (mmg e o = Ok true <-> same_place e o).
Proof.
  intros A B. destruct (mergable_spec e o A B) as (b & E & F). unfold mmg. rewrite E, <- F.
  split; [intro H; now injection H|now intros ->].
Qed.

Lemma sound_agree e f : sound e -> In f (fields_of (e_class e)) -> agree e e f.
Proof. intros (_ & S) I. destruct (S f I) as (v & G & W). exists v, v. split; [exact G|]. split; [exact G|]. now apply py_eq_refl. Qed.
Lemma equal_refl e : sound e -> controlled e -> meq e e = Ok true.
Proof.
  intros A C. apply equal_iff; try assumption. repeat split; try reflexivity. intros f I _. now apply sound_agree.
Qed.
Lemma agree_sym e o f : sound e -> sound o -> e_class e = e_class o -> In f (fields_of (e_class e)) -> agree e o f -> agree o e f.
Proof.
  intros (_ & S) (_ & S') EC I (v & w & G & G' & P). exists w, v. split; [exact G'|]. split; [exact G|].
  destruct (S f I) as (v' & H & W). destruct (S' f) as (w' & H' & W'); [now rewrite <- EC|].
  rewrite G in H. rewrite G' in H'. injection H as <-. injection H' as <-. now apply py_eq_sym.
Qed.
Lemma equal_sym e o : sound e -> sound o -> controlled e -> controlled o -> meq e o = meq o e.
Proof.
  intros A B C D.
  assert (H : forall e o, sound e -> sound o -> controlled e -> controlled o -> meq e o = Ok true -> meq o e = Ok true).
  { clear. intros e o A B C D H. apply equal_iff in H; try assumption. destruct H as (H1 & H2 & H3 & H4 & H5).
    apply equal_iff; try assumption. split; [now symmetry|]. split; [now symmetry|]. split; [now symmetry|]. split; [now symmetry|].
    rewrite <- H1. intros f I V. apply agree_sym; auto. }
  destruct (equal_spec e o A B C D) as ([] & E & _); destruct (equal_spec o e B A D C) as ([] & E' & _);
    fold (meq e o) in E; fold (meq o e) in E'; rewrite ?E, ?E'; try reflexivity.
  - apply H in E; try assumption. congruence.
  - apply H in E'; try assumption. congruence.
Qed.
Lemma equal_trans a b c : sound a -> sound b -> sound c -> controlled a -> controlled b -> controlled c ->
  meq a b = Ok true -> meq b c = Ok true -> meq a c = Ok true.
Proof.
  intros A B C D E F H K. apply equal_iff in H; try assumption. apply equal_iff in K; try assumption. apply equal_iff; try assumption.
  destruct H as (H1 & H2 & H3 & H4 & H5). destruct K as (K1 & K2 & K3 & K4 & K5).
  split; [congruence|]. split; [now rewrite H2|]. split; [now rewrite H3|]. split; [congruence|].
  intros f I V. destruct (H5 f I V) as (u & v & G & G' & P). rewrite <- H1 in K5. destruct (K5 f I V) as (v' & w & L & L' & Q).
  rewrite G' in L. injection L as <-. exists u, w. split; [exact G|]. split; [exact L'|]. exact (py_eq_trans _ _ _ P Q).
Qed.

Lemma watched k : In k classes ->
  forallb (fun f => negb (overlooked k f)) [str "name"; str "direction"; str "orientation"] &&
  (negb (mem cb (fields_of k)) || negb (overlooked k cb) && negb (stays k cb)) &&
  (match signals k with [] => true | _ => mem cb (fields_of k) end) = true.
Proof. revert k. apply forallb_forall. vm_compute. reflexivity. Qed.
Lemma watched_place k f : In k classes -> In f [str "name"; str "direction"; str "orientation"] -> overlooked k f = false.
Proof.
  intros K I. pose proof (watched k K) as W. rewrite !Bool.andb_true_iff in W. destruct W as [[W _] _].
  rewrite forallb_forall in W. apply Bool.negb_true_iff. exact (W f I).
Qed.
Lemma watched_control k g : In k classes -> In g (signals k) ->
  In cb (fields_of k) /\ overlooked k cb = false /\ stays k cb = false.
Proof.
  intros K I. pose proof (watched k K) as W. rewrite !Bool.andb_true_iff in W. destruct W as [[_ W] V].
  destruct (signals k); [destruct I|]. rewrite V in W. cbn in W. apply Bool.andb_true_iff in W as [W1 W2].
  split; [now apply mem_iff|]. split; now apply Bool.negb_true_iff.
Qed.

Lemma equal_same_place e o : sound e -> sound o -> controlled e -> controlled o -> meq e o = Ok true -> mmg e o = Ok true.
Proof.
  intros A B C D H. apply equal_iff in H; try assumption. destruct H as (H1 & H2 & H3 & H4 & H5).
  apply mergable_iff; try assumption. pose proof (proj1 A) as K. facts (e_class e) K.
  split; [exact H1|]. split; [apply H5; [now apply mem_iff|apply watched_place; [exact K|now left]]|].
  split; [exact H2|]. split; [exact H3|]. split; [exact H4|].
  intros f I J. apply H5; [exact J|]. apply watched_place; [exact K|]. now right.
Qed.

Lemma overlooked_equal e f v : sound e -> controlled e -> overlooked (e_class e) f = true -> wf v ->
  meq e (with_root e (set (e_root e) f v)) = Ok true.
Proof.
  intros A C O W.
  assert (GN : forall f', overlooked (e_class e) f' = false -> get (set (e_root e) f v) f' = get (e_root e) f').
  { intros f' H. rewrite get_set. destruct (pystr_eqb f f') eqn:E; [|reflexivity]. apply pystr_eqb_eq in E. congruence. }
  apply equal_iff; try assumption.
  - destruct A as [K S]. split; [exact K|]. intros f' I. cbn [with_root e_root e_class] in *. rewrite get_set.
    destruct (pystr_eqb f f'); [now exists v|now apply S].
  - intros g I. cbn [with_root e_root e_class] in *. destruct (C g I) as (c & fs & ex & x & G & H).
    exists c, fs, ex, x. split; [|exact H]. rewrite GN; [exact G|]. exact (proj1 (proj2 (watched_control _ g (proj1 A) I))).
  - repeat split; try reflexivity. intros f' I N. destruct (sound_agree e f' A I) as (x & y & G & G' & P).
    exists x, y. cbn [with_root e_root]. rewrite (GN f' N). auto.
Qed.

Section After.
  Variables (check : pystr -> bool -> pystr -> val -> result val) (self other : nat) (e o : ent) (ws : option (list wire)).
  Hypotheses (NE : self <> other) (SE : sound e) (SO : sound o) (CO : controlled o)
    (SP : same_place e o) (AC : accepted check (e_validates e) o) (AW : forall w, ws = Some w -> associated w).

  Lemma merged_sound e' ws' : merge check methods_table bases_table self other e o ws = ((e', ws'), None) ->
    sound e' /\ controlled e' /\ e_class e' = e_class e.
  Proof.
    intro M. destruct (merge_spec check self other e o ws NE SE SO CO (proj1 SP) AC AW) as
      (e1 & ws1 & M1 & E1 & E2 & E3 & E4 & E5 & E6 & _). rewrite M in M1. injection M1 as <- <-.
    split; [|split; [|exact E1]].
    - split; [rewrite E1; exact (proj1 SE)|]. rewrite E1. intros f I. destruct (stays (e_class e) f) eqn:S.
      + rewrite E6 by now right. exact (proj2 SE f I).
      + rewrite E5 by assumption. apply (proj2 SO). now rewrite <- (proj1 SP).
    - intros g I. rewrite E1 in I. destruct (watched_control _ g (proj1 SE) I) as (J1 & _ & J3).
      assert (I' : In g (signals (e_class o))) by now rewrite <- (proj1 SP).
      destruct (CO g I') as (c & fs & ex & v & G & H). exists c, fs, ex, v. split; [|exact H].
      exact (eq_trans (E5 cb J1 J3) G).
  Qed.

  Lemma merged_equal : exists e' ws',
    merge check methods_table bases_table self other e o ws = ((e', ws'), None) /\ meq e' o = Ok true /\ mmg e' o = Ok true.
  Proof.
    destruct (merge_spec check self other e o ws NE SE SO CO (proj1 SP) AC AW) as
      (e' & ws' & M & E1 & E2 & E3 & E4 & E5 & E6 & _). exists e', ws'. split; [exact M|].
    destruct (merged_sound _ _ M) as (S' & C' & _).
    assert (EQ : meq e' o = Ok true).
    { apply equal_iff; try assumption. destruct SP as (P1 & P2 & P3 & P4 & P5 & P6). rewrite E1, E2, E3.
      split; [exact P1|]. split; [exact P3|]. split; [exact P4|]. split; [exact P5|].
      intros f I V. destruct (stays (e_class e) f) eqn:S.
      - assert (AG : agree e o f).
        { unfold stays in S. apply Bool.orb_true_iff in S as [S|S].
          - apply mem_iff in S. unfold overlooked in V. rewrite !Bool.orb_false_iff in V. destruct V as [[V _] _].
            assert (V' : ~ In f [str "position"; str "entity_number"]) by now apply mem_out.
            destruct S as [<-|[<-|[<-|[<-|[<-|[]]]]]]; [exact P2| | | |].
            + destruct V'. now left.
            + destruct V'. right. now left.
            + apply P6; [now left|exact I].
            + apply P6; [right; now left|exact I].
          - unfold overlooked in V. rewrite S in V. now rewrite Bool.orb_true_r in V. }
        destruct AG as (v & w & G & G' & P). exists v, w. rewrite E6 by now right. auto.
      - assert (I' : In f (fields_of (e_class o))) by now rewrite <- P1.
        destruct (proj2 SO f I') as (v & G & W). exists v, v. rewrite E5 by assumption.
        split; [exact G|]. split; [exact G|]. now apply py_eq_refl. }
    split; [exact EQ|]. exact (equal_same_place e' o S' SO C' CO EQ).
  Qed.

  Lemma merge_twice e' ws' : merge check methods_table bases_table self other e o ws = ((e', ws'), None) ->
    exists e'', merge check methods_table bases_table self other e' o ws' = ((e'', ws'), None) /\
      e_class e'' = e_class e' /\ e_pos e'' = e_pos e' /\ e_id e'' = e_id e' /\
      forall f, get (e_root e'') f = get (e_root e') f.
  Proof.
    intro M. destruct (merge_spec check self other e o ws NE SE SO CO (proj1 SP) AC AW) as
      (e1 & ws1 & M1 & E1 & E2 & E3 & E4 & E5 & E6 & E7 & E8). rewrite M in M1. injection M1 as <- <-.
    destruct (merged_sound _ _ M) as (S' & C' & EC').
    destruct (merge_spec check self other e' o ws' NE S' SO CO) as
      (e'' & ws'' & M' & F1 & F2 & F3 & F4 & F5 & F6 & F7 & F8).
    - rewrite EC'. exact (proj1 SP).
    - now rewrite E4.
    - intros w H. destruct (is_wired (e_class e)) eqn:X.
      + apply wired_iff in X. rewrite (E7 X) in H. destruct ws as [w0|]; [|discriminate]. injection H as <-.
        now apply moved_associated, AW.
      + assert (X' : ~ wired (e_class e)) by (rewrite <- wired_iff; congruence). rewrite (E8 X') in H. now apply AW.
    - rewrite EC' in *. exists e''.
      assert (W : ws'' = ws').
      { destruct (is_wired (e_class e)) eqn:X.
        - apply wired_iff in X. rewrite (F7 X), (E7 X). destruct ws as [w0|]; [|reflexivity]. cbn [option_map]. f_equal.
          rewrite map_map. apply map_ext. intro w. now apply moved_again.
        - apply F8. rewrite <- wired_iff. congruence. }
      subst ws''. split; [exact M'|]. split; [congruence|]. split; [exact F2|]. split; [exact F3|].
      intro f. destruct (mem f (fields_of (e_class e))) eqn:I.
      + apply mem_iff in I. destruct (stays (e_class e) f) eqn:S; [apply F6; now right|].
        rewrite F5 by assumption. now rewrite E5.
      + apply F6. left. now apply mem_out.
  Qed.
End After.

Lemma no_wire_left check self other e o ws e' ws' :
  self <> other -> sound e -> sound o -> controlled o -> e_class e = e_class o ->
  accepted check (e_validates e) o -> associated ws -> wired (e_class e) ->
  merge check methods_table bases_table self other e o (Some ws) = ((e', Some ws'), None) ->
  List.length ws' = List.length ws /\ (forall w, In w ws' -> ~ In (WRef (Some other)) (ends w)).
Proof.
  intros NE SE SO CO EC AC AW WI M.
  destruct (merge_spec check self other e o (Some ws) NE SE SO CO EC AC) as (e1 & ws1 & M1 & _ & _ & _ & _ & _ & _ & E7 & _).
  - intros w H. now injection H as <-.
  - rewrite M in M1. injection M1 as <- <-. specialize (E7 WI). cbn in E7. injection E7 as ->.
    split; [apply map_length|]. intros w I. exact (moved_gone self other ws w NE I).
Qed.

(** ** Where it goes wrong *)
Lemma read_sub e f g v : read e (Sub f g) = Ok v <-> exists m, get (e_root e) f = Some m /\ gives m g v.
Proof.
  cbn [read]. split.
  - destruct (get (e_root e) f) as [m|]; [|discriminate]. destruct m; try discriminate. intros X. eexists. split; [reflexivity|].
    destruct (get fields g) as [w|] eqn:G; [injection X as ->; now constructor|]. destruct (get extra g) as [w|] eqn:G'; [injection X as ->; now constructor|discriminate].
  - intros (m & G & H). rewrite G. inversion H; subst; [now rewrite H0|now rewrite H0, H1].
Qed.
Lemma read_sub_err e f g x : read e (Sub f g) = Err x -> x = AttributeError.
Proof.
  cbn [read]. destruct (get (e_root e) f) as [m|]; [|congruence]. destruct m; try congruence.
  destruct (get _ g); [discriminate|]. destruct (get _ g); [discriminate|congruence].
Qed.
(** Two accumulators that agree in all but their output signals. *)
Lemma accumulator_exact e o v w :
  e_class e = str "Accumulator" -> e_class o = str "Accumulator" ->
  (forall f, f <> cb -> In f (fields_of (str "Accumulator")) -> agree e o f) ->
  (fst (e_pos e) == fst (e_pos o))%Q -> (snd (e_pos e) == snd (e_pos o))%Q -> e_id e = e_id o ->
  get (e_root e) cb = Some v -> get (e_root o) cb = Some w -> py_eq v w = true ->
  (forall x y, gives v (str "output_signal") x -> gives w (str "output_signal") y -> meq e o = Ok (py_eq x y)) /\
  ((forall x, ~ gives v (str "output_signal") x) \/ (forall y, ~ gives w (str "output_signal") y) -> meq e o = Err AttributeError).
Proof.
  intros E1 E2 A P1 P2 Q G G' PE.
  assert (X : meq e o = let* x := read e (Sub cb (str "output_signal")) in let* y := read o (Sub cb (str "output_signal")) in Ok (py_eq x y)).
  { unfold meq, equal. rewrite E1, test_flat.
    change (flat_test methods_table m_eq (mro bases_table (str "Accumulator"))) with
      [TType; TAttr (Fld (str "name")); TPosition; TId; TAttr (Fld (str "tags")); TAttr (Fld cb); TAttr (Sub cb (str "output_signal"))].
    cbn [conj holds]. rewrite E1, E2, pystr_eqb_refl. cbn [bind].
    destruct (A (str "name")) as (n & m & N1 & N2 & N3); [discriminate|now left|].
    destruct (A (str "tags")) as (t & u & T1 & T2 & T3); [discriminate|vm_compute; tauto|].
    set (R1 := read e (Sub cb (str "output_signal"))). set (R2 := read o (Sub cb (str "output_signal"))).
    cbn [read]. rewrite N1, N2. cbn [bind]. rewrite N3.
    rewrite (proj2 (pos_eqb_iff _ _) (Logic.conj P1 P2)).
    rewrite (proj2 (id_eqb_iff _ _) Q). cbn [bind].
    rewrite T1, T2. cbn [bind]. rewrite T3. rewrite G, G'. cbn [bind]. rewrite PE.
    destruct R1 as [x|]; [|reflexivity]. destruct R2 as [y|]; [|reflexivity]. cbn [bind]. destruct (py_eq x y); reflexivity. }
  rewrite X. split.
  - intros x y H1 H2. rewrite (proj2 (read_sub e cb (str "output_signal") x)) by eauto. rewrite (proj2 (read_sub o cb (str "output_signal") y)) by eauto. reflexivity.
  - intros H. destruct (read e (Sub cb (str "output_signal"))) as [x|e1] eqn:R1; cbn [bind].
    2:{ f_equal. exact (read_sub_err _ _ _ _ R1). }
    destruct (read o (Sub cb (str "output_signal"))) as [y|e2] eqn:R2; cbn [bind].
    2:{ f_equal. exact (read_sub_err _ _ _ _ R2). }
    apply read_sub in R1 as (m & M & K). apply read_sub in R2 as (m' & M' & K'). rewrite G in M. rewrite G' in M'. injection M as <-. injection M' as <-.
    destruct H as [H|H]; [destruct (H x K)|destruct (H y K')].
Qed.

(** prototypes/accumulator.py 37-69 and prototypes/rail_signal.py 40-80, as
    constructed. *)
Definition signal (n : pystr) : val :=
  VRec (str "SignalID") [(str "name", VStr n); (str "type", VStr (str "virtual")); (str "quality", VStr (str "normal"))] [].
Definition origin : val := VRec (str "FloatPosition") [(str "x", VFloat 0); (str "y", VFloat 0)] [].
Definition charge : val := VRec (str "Accumulator.Format.ControlBehavior") [(str "output_signal", signal (str "signal-A"))] [].
Definition accumulator (quality : pystr) (control : val) (tags : list (pystr * val)) : ent :=
  mkEnt (str "Accumulator") (1, 1)%Q None true
    [(str "name", VStr (str "accumulator")); (str "quality", VStr quality); (str "position", origin);
     (str "entity_number", VInt 0); (str "tags", VMap tags); (str "control_behavior", control)].
Lemma accumulator_sound q c t : wf c -> wf (VMap t) -> sound (accumulator q c t).
Proof.
  intros W V. split; [vm_compute; tauto|]. intros f I.
  change (fields_of (e_class (accumulator q c t))) with
    [str "name"; str "quality"; str "position"; str "entity_number"; str "tags"; str "control_behavior"] in I.
  destruct I as [<-|[<-|[<-|[<-|[<-|[<-|[]]]]]]]; eexists; (split; [reflexivity|]); try exact Logic.I; try assumption.
  cbn. repeat (constructor; try (cbn; intuition discriminate)).
Qed.
Lemma charge_wf : wf charge.
Proof.
  unfold charge, signal. cbn.
  repeat match goal with |- _ /\ _ => split | |- NoDup _ => constructor | |- True => exact Logic.I | |- ~ _ => cbn; intuition discriminate end.
Qed.
Lemma accumulator_controlled q t : controlled (accumulator q charge t).
Proof.
  intros g I. change (signals (e_class (accumulator q charge t))) with [str "output_signal"] in I.
  destruct I as [<-|[]]. do 4 eexists. split; reflexivity.
Qed.
Definition lax : pystr -> bool -> pystr -> val -> result val := fun _ _ _ v => Ok v.
Lemma lax_accepted b e : get (e_root e) (str "items") <> Some VNone -> get (e_root e) (str "link_id") <> Some VNone -> accepted lax b e.
Proof. intros A B. repeat split; assumption. Qed.

Lemma empty_wf : wf (VMap []).
Proof. cbn. split; constructor. Qed.
Lemma equal_different : exists e o, sound e /\ sound o /\ controlled e /\ controlled o /\
  meq e o = Ok true /\ ~ agree e o (str "quality").
Proof.
  exists (accumulator (str "normal") charge []), (accumulator (str "legendary") charge []).
  split; [exact (accumulator_sound _ _ _ charge_wf empty_wf)|].
  split; [exact (accumulator_sound _ _ _ charge_wf empty_wf)|].
  split; [apply accumulator_controlled|]. split; [apply accumulator_controlled|].
  split; [vm_compute; reflexivity|]. intros (v & w & G & G' & P). cbn in G, G'. injection G as <-. injection G' as <-. discriminate.
Qed.
Lemma merge_loses : exists e o e', sound e /\ sound o /\ controlled o /\ same_place e o /\ accepted lax true o /\
  merge lax methods_table bases_table 0 1 e o None = ((e', None), None) /\ ~ agree e' o (str "quality").
Proof.
  exists (accumulator (str "normal") charge []), (accumulator (str "legendary") charge [(str "a", VInt 1)]),
    (accumulator (str "normal") charge [(str "a", VInt 1)]).
  assert (W : wf (VMap [(str "a", VInt 1)])) by (cbn; repeat split; repeat constructor; cbn; tauto).
  split; [exact (accumulator_sound _ _ _ charge_wf empty_wf)|].
  split; [exact (accumulator_sound _ _ _ charge_wf W)|].
  split; [apply accumulator_controlled|].
  split; [apply mergable_iff; [exact (accumulator_sound _ _ _ charge_wf empty_wf)|exact (accumulator_sound _ _ _ charge_wf W)|vm_compute; reflexivity]|].
  split; [apply lax_accepted; discriminate|].
  split; [vm_compute; reflexivity|]. intros (v & w & G & G' & P). cbn in G, G'. injection G as <-. injection G' as <-. discriminate.
Qed.
Lemma equal_raises : exists e, sound e /\ meq e e = Err AttributeError.
Proof.
  exists (accumulator (str "normal") VNone []). split; [exact (accumulator_sound _ VNone _ Logic.I empty_wf)|].
  vm_compute. reflexivity.
Qed.

Definition rail_signal (control : val) (tags : list (pystr * val)) : ent :=
  mkEnt (str "RailSignal") (1, 1)%Q None true
    [(str "name", VStr (str "rail-signal")); (str "quality", VStr (str "normal")); (str "position", origin);
     (str "entity_number", VInt 0); (str "tags", VMap tags); (str "direction", VInt 0); (str "control_behavior", control)].
Definition lights : val := VRec (str "RailSignal.Format.ControlBehavior")
  [(str "red_output_signal", signal (str "signal-red")); (str "yellow_output_signal", signal (str "signal-yellow"));
   (str "green_output_signal", signal (str "signal-green"))] [].
Lemma lights_wf : wf lights.
Proof.
  unfold lights, signal. cbn.
  repeat match goal with |- _ /\ _ => split | |- NoDup _ => constructor | |- True => exact Logic.I | |- ~ _ => cbn; intuition discriminate end.
Qed.
Lemma rail_signal_sound c t : wf c -> wf (VMap t) -> sound (rail_signal c t).
Proof.
  intros W V. split; [vm_compute; tauto|]. intros f I.
  change (e_class (rail_signal c t)) with (str "RailSignal") in I.
  assert (J : In f [str "name"; str "quality"; str "position"; str "entity_number"; str "tags"; str "direction"; str "control_behavior"]).
  { revert f I. apply incl_Forall_in_iff. apply Forall_forall. intros f I.
    revert I. vm_compute. tauto. }
  destruct J as [<-|[<-|[<-|[<-|[<-|[<-|[<-|[]]]]]]]]; eexists; (split; [reflexivity|]); try exact Logic.I; try assumption.
  cbn. repeat (constructor; try (cbn; intuition discriminate)).
Qed.
(** Merging stops half way, with the tags and the control behavior gone. *)
Lemma half_merged : exists e o e', sound e /\ controlled e /\ sound o /\ same_place e o /\ accepted lax true o /\
  merge lax methods_table bases_table 0 1 e o None = ((e', None), Some AttributeError) /\
  get (e_root e') (str "tags") = get (e_root o) (str "tags") /\ get (e_root e') (str "tags") <> get (e_root e) (str "tags").
Proof.
  assert (W : wf (VMap [(str "a", VInt 1)])) by (cbn; repeat split; repeat constructor; cbn; tauto).
  exists (rail_signal lights []), (rail_signal VNone [(str "a", VInt 1)]), (rail_signal VNone [(str "a", VInt 1)]).
  split; [exact (rail_signal_sound _ _ lights_wf empty_wf)|].
  split.
  { intros g I. assert (J : In g [str "red_output_signal"; str "yellow_output_signal"; str "green_output_signal"]) by exact I.
    destruct J as [<-|[<-|[<-|[]]]]; do 4 eexists; split; reflexivity. }
  split; [exact (rail_signal_sound VNone _ Logic.I W)|].
  split; [apply mergable_iff; [exact (rail_signal_sound _ _ lights_wf empty_wf)|exact (rail_signal_sound VNone _ Logic.I W)|vm_compute; reflexivity]|].
  split; [apply lax_accepted; discriminate|].
  split; [vm_compute; reflexivity|]. split; [reflexivity|discriminate].
Qed.
