(** Proofs about writing and reading whole dictionaries. *)
From Coq Require Import ZArith NArith QArith String List Bool Lia.
From Verif Require Import Common Dict Trim_Model Trim_Proofs Wires_Model Wires_Spec Wires_Proofs Wires_Export_Proofs
  Wires_More_Proofs Document_Model Document_Spec Document_Proofs.
Import ListNotations.
Local Open Scope string_scope.
Local Open Scope list_scope.

Definition sched_vals (x : exported) (b : sheet) : list val :=
  map (fun p => VMap (sched_dict (fst p) (snd p))) (combine (x_scheds x) (b_scheds b)).
Definition body_of (en ed : bool) (b : sheet) (x : exported) : dict :=
  assemble (dump en ed b) (map VMap (placed_all (b_origin b) 1 (flat_parts (b_parts b))))
    (map VMap (map (fun t => tile_dict (moved_tile (b_origin b) t)) (b_tiles b)))
    (sched_vals x b) (map wire_val (x_wires x)).
Definition doc_of (en ed : bool) (b : sheet) (x : exported) : dict :=
  (str "blueprint", VMap (body_of en ed b x)) :: field en ed (str "index") VNone (b_index b).
Definition exported_of (veq : nat -> nat -> bool) (b : sheet) : result exported := export veq (coll_of b) (map sc_locos (b_scheds b)).

Lemma to_dict_of : forall veq en ed b, to_dict veq en ed b =
  match exported_of veq b with Ok x => Ok (doc_of en ed b x) | Err e => Err e end.
Proof.
  intros veq en ed b. unfold to_dict, exported_of, coll_of. destruct (export _ _ _) as [x|e]; [|reflexivity]. cbn [bind].
  rewrite shift_all. cbn [bind]. rewrite shift_tiles. cbn [bind].
  unfold doc_of, body_of, assemble, sched_vals. change (0 + 1)%Z with 1%Z. cbv zeta. reflexivity.
Qed.

(** ** What is shown *)
Lemma py_eq_none : forall v, py_eq v VNone = true -> v = VNone.
Proof. intros [] H; try discriminate H; reflexivity. Qed.
Lemma appears_field : forall en ed k dv v, appears en ed dv v (get (field en ed k dv v) k).
Proof.
  intros. rewrite get_field, pystr_eqb_refl. unfold appears.
  destruct (en && is_none v) eqn:A; cbn [orb].
  - left. split; [reflexivity|]. left. apply andb_true_iff in A. destruct A as [-> A]. destruct v; try discriminate. auto.
  - destruct (ed && py_eq v dv) eqn:B.
    + left. split; [reflexivity|]. right. apply andb_true_iff in B. exact B.
    + right. split; [reflexivity|]. apply andb_false_iff in A, B. split; [|exact B].
      destruct A as [->|A]; [auto|right; intros ->; discriminate].
Qed.
Lemma dump_get : forall en ed b k, get (dump en ed b) k =
  if pystr_eqb (str "item") k then Some (VStr (str "blueprint"))
  else if pystr_eqb (str "label") k then get (field en ed (str "label") VNone (b_label b)) k
  else if pystr_eqb (str "label_color") k then get (field en ed (str "label_color") VNone (b_color b)) k
  else if pystr_eqb (str "description") k then get (field en ed (str "description") VNone (b_description b)) k
  else if pystr_eqb (str "icons") k then get (field en ed (str "icons") VNone (b_icons b)) k
  else if pystr_eqb (str "version") k then get (field en ed (str "version") VNone (b_version b)) k
  else if pystr_eqb (str "snap-to-grid") k then Some (ints (b_size b))
  else if pystr_eqb (str "absolute-snapping") k then get (field en ed (str "absolute-snapping") (VBool true) (flag (b_absolute b))) k
  else if pystr_eqb (str "position-relative-to-grid") k then Some (ints (b_relative b))
  else if pystr_eqb (str "entities") k then get (field en ed (str "entities") (VSeq []) (VSeq [])) k
  else if pystr_eqb (str "tiles") k then get (field en ed (str "tiles") (VSeq []) (VSeq [])) k
  else if pystr_eqb (str "schedules") k then get (field en ed (str "schedules") (VSeq []) (VSeq [])) k
  else if pystr_eqb (str "wires") k then get (field en ed (str "wires") (VSeq []) (VSeq [])) k
  else get (field en ed (str "stock_connections") (VSeq []) (VSeq (b_stock b))) k.
Proof.
  intros en ed b k. unfold dump. rewrite !get_app, !get_cons, !get_field. cbn [get dget].
  change (get [] k) with (@None val).
  destruct (pystr_eqb (str "item") k) eqn:K0; [reflexivity|].
  destruct (pystr_eqb (str "label") k) eqn:K1.
  { apply pystr_eqb_eq in K1. subst k. keys. destruct (_ || _); reflexivity. }
  destruct (pystr_eqb (str "label_color") k) eqn:K2.
  { apply pystr_eqb_eq in K2. subst k. keys. destruct (_ || _); reflexivity. }
  destruct (pystr_eqb (str "description") k) eqn:K3.
  { apply pystr_eqb_eq in K3. subst k. keys. destruct (_ || _); reflexivity. }
  destruct (pystr_eqb (str "icons") k) eqn:K4.
  { apply pystr_eqb_eq in K4. subst k. keys. destruct (_ || _); reflexivity. }
  destruct (pystr_eqb (str "version") k) eqn:K5.
  { apply pystr_eqb_eq in K5. subst k. keys. destruct (_ || _); reflexivity. }
  destruct (pystr_eqb (str "snap-to-grid") k) eqn:K6; [reflexivity|].
  destruct (pystr_eqb (str "absolute-snapping") k) eqn:K7.
  { apply pystr_eqb_eq in K7. subst k. keys. destruct (_ || _); reflexivity. }
  destruct (pystr_eqb (str "position-relative-to-grid") k) eqn:K8; [reflexivity|].
  destruct (pystr_eqb (str "entities") k) eqn:K9.
  { apply pystr_eqb_eq in K9. subst k. keys. destruct (_ || _); reflexivity. }
  destruct (pystr_eqb (str "tiles") k) eqn:K10.
  { apply pystr_eqb_eq in K10. subst k. keys. destruct (_ || _); reflexivity. }
  destruct (pystr_eqb (str "schedules") k) eqn:K11.
  { apply pystr_eqb_eq in K11. subst k. keys. destruct (_ || _); reflexivity. }
  destruct (pystr_eqb (str "wires") k) eqn:K12.
  { apply pystr_eqb_eq in K12. subst k. keys. destruct (_ || _); reflexivity. }
  reflexivity.
Qed.
Lemma zero_ints : forall p, py_eq (ints p) (ints (0, 0)%Z) = true <-> p = (0, 0)%Z.
Proof.
  intros [a b]. unfold ints, vector. cbn. rewrite ?andb_true_r.
  unfold Qeq_bool, inject_Z; cbn.
  rewrite ?Z.mul_1_r. split.
  - intro H. apply andb_true_iff in H. destruct H as [H1 H2].
    apply Zeq_bool_eq in H1. apply Zeq_bool_eq in H2. subst. reflexivity.
  - intro H. injection H as -> ->. reflexivity.
Qed.
Lemma pair_gone : forall p, pair_appears p (zero_gone (Some (ints p))).
Proof.
  intros p. unfold zero_gone, pair_appears. destruct (py_eq (ints p) (ints (0, 0)%Z)) eqn:E.
  - left. apply zero_ints in E. auto.
  - right. split; [|reflexivity]. intro H. apply zero_ints in H. congruence.
Qed.
Lemma list_gone : forall l, list_appears l (nonempty (Some (VSeq l))).
Proof. intros [|v l]; [left; auto|right; split; [discriminate|reflexivity]]. Qed.

Lemma body_of_shown : forall en ed b x,
  body_shown en ed b (placed_all (b_origin b) 1 (flat_parts (b_parts b)))
    (map (fun t => tile_dict (moved_tile (b_origin b) t)) (b_tiles b))
    (map (fun p => sched_dict (fst p) (snd p)) (combine (x_scheds x) (b_scheds b)))
    (x_wires x) (body_of en ed b x).
Proof.
  intros en ed b x. unfold body_shown, body_of. pose proof (dump_nodup en ed b) as N.
  repeat split; rewrite ?(get_assemble _ _ _ _ _ _ N), ?dump_get; keys; try reflexivity; try apply appears_field;
    try apply pair_gone; try apply list_gone.
  - unfold sched_vals. rewrite <- map_map with (f := fun p => sched_dict (fst p) (snd p)) (g := VMap). apply list_gone.
  - intros k NI. rewrite (get_assemble _ _ _ _ _ _ N).
    assert (Z : forall s, In (str s) body_keys -> pystr_eqb (str s) k = false).
    { intros s I. destruct (pystr_eqb (str s) k) eqn:E; [|reflexivity]. apply pystr_eqb_eq in E. subst. contradiction. }
    rewrite !Z by (cbn; tauto). apply get_none. intro I. apply NI. exact (sub_in _ _ (dump_keys en ed b) _ I).
Qed.

Lemma sched_dict_shown : forall ns s, sched_shown ns s (sched_dict ns s).
Proof.
  intros ns s. split; [reflexivity|]. intros k NE. unfold sched_dict. rewrite get_cons.
  destruct (pystr_eqb (str "locomotives") k) eqn:E; [apply pystr_eqb_eq in E; congruence|reflexivity].
Qed.
Lemma Forall2_map_l : forall {A B C} (f : A -> B) (R : B -> C -> Prop) l k, Forall2 R (map f l) k <-> Forall2 (fun a c => R (f a) c) l k.
Proof.
  intros A B C f R. induction l as [|a l IH]; intro k; cbn; split; intro H; inversion H; subst; constructor; auto; apply IH; assumption.
Qed.

Lemma to_dict_shown : forall veq en ed b doc, to_dict veq en ed b = Ok doc -> shown veq en ed b doc.
Proof.
  intros veq en ed b doc. rewrite to_dict_of. destruct (exported_of veq b) as [x|e] eqn:E; [|discriminate].
  intro H. injection H as <-. pose proof E as E0. apply export_iff in E0. destruct E0 as (fl & inner & all & F & W & NUM & S & WW & D).
  exists (body_of en ed b x), (flat_parts (b_parts b)), fl, inner, all,
    (placed_all (b_origin b) 1 (flat_parts (b_parts b))),
    (map (fun t => tile_dict (moved_tile (b_origin b) t)) (b_tiles b)),
    (map (fun p => sched_dict (fst p) (snd p)) (combine (x_scheds x) (b_scheds b))),
    (x_scheds x), (x_wires x).
  split; [reflexivity|]. split; [unfold doc_of; rewrite get_cons; keys; apply appears_field|].
  split.
  { intros k N1 N2. unfold doc_of. rewrite get_cons, get_field.
    destruct (pystr_eqb (str "blueprint") k) eqn:K1; [apply pystr_eqb_eq in K1; congruence|].
    destruct (pystr_eqb (str "index") k) eqn:K2; [apply pystr_eqb_eq in K2; congruence|]. reflexivity. }
  split; [apply body_of_shown|]. split; [apply flat_parts_spread|]. split; [apply placed_all_shown|]. split; [apply tiles_shown|].
  split; [exact F|]. split; [exact W|]. split; [exact (proj1 (Forall2_map_l sc_locos _ _ _) S)|]. split; [|split; [exact WW|exact D]].
  set (c := combine (x_scheds x) (b_scheds b)). clearbody c. induction c as [|[ns s] c IH]; cbn; constructor; [apply sched_dict_shown|exact IH].
Qed.
Lemma to_dict_fails : forall veq en ed b e, to_dict veq en ed b = Err e <-> export veq (coll_of b) (map sc_locos (b_scheds b)) = Err e.
Proof.
  intros veq en ed b e. rewrite to_dict_of. unfold exported_of. destruct (export _ _ _) as [x|e']; split; intro H; congruence.
Qed.
Lemma to_dict_flags : forall veq en ed en' ed' b doc, to_dict veq en ed b = Ok doc -> exists doc' body body',
  to_dict veq en' ed' b = Ok doc' /\ get doc (str "blueprint") = Some (VMap body) /\ get doc' (str "blueprint") = Some (VMap body') /\
  forall k, In k (map str ["entities"; "tiles"; "schedules"; "wires"]) -> get body' k = get body k.
Proof.
  intros veq en ed en' ed' b doc. rewrite !to_dict_of. destruct (exported_of veq b) as [x|e]; [|discriminate].
  intro H. injection H as <-. do 3 eexists. split; [reflexivity|]. split; [reflexivity|]. split; [reflexivity|].
  intros k I. unfold body_of. rewrite !get_assemble by apply dump_nodup.
  cbn in I. destruct I as [<-|[<-|[<-|[<-|[]]]]]; keys; reflexivity.
Qed.
