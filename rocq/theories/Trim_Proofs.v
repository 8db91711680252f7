(** Proofs about trimmed exports (C48). *)
From Coq Require Import ZArith QArith String List Bool Lia.
From Verif Require Import Common Dict Trim_Model Trim_Spec.
Import ListNotations.
Local Open Scope list_scope.

(** ** Induction principles *)
Section ValInd.
  Variable P : val -> Prop.
  Hypothesis HN : P VNone.
  Hypothesis HB : forall b, P (VBool b).
  Hypothesis HI : forall z, P (VInt z).
  Hypothesis HF : forall q, P (VFloat q).
  Hypothesis HS : forall s, P (VStr s).
  Hypothesis HL : forall l, Forall P l -> P (VSeq l).
  Hypothesis HM : forall d, Forall (fun kv => P (snd kv)) d -> P (VMap d).
  Hypothesis HR : forall c f x, Forall (fun kv => P (snd kv)) f -> Forall (fun kv => P (snd kv)) x -> P (VRec c f x).
  Fixpoint val_ind' (v : val) : P v :=
    let dict := fix dict (d : list (pystr * val)) : Forall (fun kv => P (snd kv)) d :=
      match d with
      | [] => Forall_nil _
      | kv :: d' => Forall_cons _ (val_ind' (snd kv)) (dict d')
      end in
    match v with
    | VNone => HN
    | VBool b => HB b
    | VInt z => HI z
    | VFloat q => HF q
    | VStr s => HS s
    | VSeq l => HL l ((fix seq (l : list val) : Forall P l :=
        match l with [] => Forall_nil _ | x :: l' => Forall_cons _ (val_ind' x) (seq l') end) l)
    | VMap d => HM d (dict d)
    | VRec c f x => HR c f x (dict f) (dict x)
    end.
End ValInd.

Section TypInd.
  Variable P : typ -> Prop.
  Hypothesis HP : forall k, P (Plain k).
  Hypothesis HO : forall t, P t -> P (Opt t).
  Hypothesis HL : forall t, P t -> P (ListOf t).
  Hypothesis HM : forall c fs, Forall (fun ft => P (snd ft)) fs -> P (Model c fs).
  Fixpoint typ_ind' (t : typ) : P t :=
    match t with
    | Plain k => HP k
    | Opt t => HO t (typ_ind' t)
    | ListOf t => HL t (typ_ind' t)
    | Model c fs => HM c fs ((fix each (fs : list (field * typ)) : Forall (fun ft => P (snd ft)) fs :=
        match fs with [] => Forall_nil _ | ft :: fs' => Forall_cons _ (typ_ind' (snd ft)) (each fs') end) fs)
    end.
End TypInd.

(** ** Dictionaries *)
Lemma mem_iff k l : mem k l = true <-> In k l.
Proof.
  unfold mem. rewrite existsb_exists. split.
  - intros (x & I & E). apply pystr_eqb_eq in E. now subst.
  - intro I. exists k. split; [exact I|apply pystr_eqb_refl].
Qed.

Lemma mem_out k l : mem k l = false <-> ~ In k l.
Proof. rewrite <- mem_iff. destruct (mem k l); split; intro; congruence || tauto. Qed.

Lemma distinct_iff l : distinct l = true <-> NoDup l.
Proof.
  induction l as [|k l IH]; cbn; [split; [constructor|reflexivity]|].
  rewrite Bool.andb_true_iff, Bool.negb_true_iff, mem_out, IH. split.
  - intros [A B]. now constructor.
  - intro H. inversion H. tauto.
Qed.

Lemma get_app {A} (d e : list (pystr * A)) k :
  get (d ++ e) k = match get d k with Some v => Some v | None => get e k end.
Proof.
  unfold get. induction d as [|[k' v] d IH]; cbn; [reflexivity|].
  now destruct (pystr_eqb k' k).
Qed.

Lemma get_none {A} (d : list (pystr * A)) k : get d k = None <-> ~ In k (map fst d).
Proof.
  unfold get. induction d as [|[k' v] d IH]; cbn; [tauto|].
  destruct (pystr_eqb k' k) eqn:E.
  - apply pystr_eqb_eq in E. subst. split; [discriminate|intuition].
  - rewrite IH. assert (k <> k') by (intro; subst; rewrite pystr_eqb_refl in E; discriminate).
    split; [intros H1 [H2|H2]; [now symmetry in H2|tauto]|tauto].
Qed.

Lemma get_in {A} (d : list (pystr * A)) k v : get d k = Some v -> In (k, v) d.
Proof.
  unfold get. induction d as [|[k' w] d IH]; cbn; [discriminate|].
  destruct (pystr_eqb k' k) eqn:E.
  - apply pystr_eqb_eq in E. intro H. injection H as ->. subst. now left.
  - intro H. right. now apply IH.
Qed.

Lemma in_get {A} (d : list (pystr * A)) k v : NoDup (map fst d) -> In (k, v) d -> get d k = Some v.
Proof.
  unfold get. induction d as [|[k' w] d IH]; cbn; [tauto|].
  intros N [E|I].
  - injection E as -> ->. now rewrite pystr_eqb_refl.
  - inversion N as [|x y Z1 Z2]; subst. destruct (pystr_eqb k' k) eqn:E.
    + apply pystr_eqb_eq in E. subst. exfalso. apply Z1. apply in_map_iff. now exists (k, v).
    + now apply IH.
Qed.

Lemma set_new {A} (d : list (pystr * A)) k v : ~ In k (map fst d) -> set d k v = d ++ [(k, v)].
Proof.
  unfold set. induction d as [|[k' w] d IH]; cbn; [reflexivity|].
  intro H. destruct (pystr_eqb k' k) eqn:E.
  - apply pystr_eqb_eq in E. subst. tauto.
  - rewrite IH by tauto. reflexivity.
Qed.

Lemma update_app {A} (e d : list (pystr * A)) :
  NoDup (map fst e) -> (forall k, In k (map fst e) -> ~ In k (map fst d)) -> update d e = d ++ e.
Proof.
  unfold update. revert d. induction e as [|[k v] e IH]; intros d N H; cbn [fold_left fst snd].
  - now rewrite app_nil_r.
  - cbn in N. inversion N as [|x y Z1 Z2]; subst. rewrite set_new by (apply H; now left).
    rewrite IH; [|assumption|].
    + now rewrite <- app_assoc.
    + intros k' I. rewrite map_app, in_app_iff. cbn. intros [J|[J|[]]].
      * eapply H; [right; exact I|exact J].
      * subst. tauto.
Qed.

(** ** Equality *)
Definition items_eq (d e : list (pystr * val)) : bool :=
  forallb (fun kx => match get e (fst kx) with Some y => py_eq (snd kx) y | None => false end) d.

Lemma py_eq_map d e : py_eq (VMap d) (VMap e) = Nat.eqb (List.length d) (List.length e) && items_eq d e.
Proof.
  cbn [py_eq num_of]. f_equal. unfold items_eq.
  induction d as [|[k x] d IH]; cbn [forallb fst snd]; [reflexivity|]. now rewrite IH.
Qed.

Lemma py_eq_rec c f x c' f' x' : py_eq (VRec c f x) (VRec c' f' x') =
  pystr_eqb c c' && Nat.eqb (List.length f) (List.length f') && items_eq f f' &&
  Nat.eqb (List.length x) (List.length x') && items_eq x x'.
Proof.
  cbn [py_eq num_of].
  assert (H : forall d e, (fix items (d e : list (pystr * val)) {struct d} : bool :=
    match d with
    | [] => true
    | (k, x) :: d' => match get e k with Some y => py_eq x y | None => false end && items d' e
    end) d e = items_eq d e).
  { unfold items_eq. induction d as [|[k z] d IH]; intro e; cbn [forallb fst snd]; [reflexivity|]. now rewrite IH. }
  now rewrite !H.
Qed.

Fixpoint seq_eq (l m : list val) : bool :=
  match l, m with
  | [], [] => true
  | x :: l', y :: m' => py_eq x y && seq_eq l' m'
  | _, _ => false
  end.
Lemma py_eq_seq l m : py_eq (VSeq l) (VSeq m) = seq_eq l m.
Proof.
  cbn [py_eq num_of]. revert m. induction l as [|x l IH]; intros [|y m]; cbn [seq_eq]; try reflexivity.
Qed.

(** No dictionary has a key twice. *)
Fixpoint wf (v : val) : Prop :=
  let dict := fix dict (d : list (pystr * val)) : Prop :=
    match d with [] => True | (_, x) :: d' => wf x /\ dict d' end in
  match v with
  | VSeq l => (fix seq (l : list val) : Prop := match l with [] => True | x :: l' => wf x /\ seq l' end) l
  | VMap d => NoDup (map fst d) /\ dict d
  | VRec _ f x => NoDup (map fst f) /\ dict f /\ NoDup (map fst x) /\ dict x
  | _ => True
  end.
Lemma wf_dict d :
  (fix dict (d : list (pystr * val)) : Prop :=
    match d with [] => True | (_, x) :: d' => wf x /\ dict d' end) d <-> Forall (fun kv => wf (snd kv)) d.
Proof.
  induction d as [|[k x] d IH]; [split; constructor|]. rewrite Forall_cons_iff, <- IH. reflexivity.
Qed.
Lemma wf_seq l : wf (VSeq l) <-> Forall wf l.
Proof.
  cbn [wf]. induction l as [|x l IH]; [split; constructor|]. rewrite Forall_cons_iff, <- IH. reflexivity.
Qed.
Lemma wf_map d : wf (VMap d) <-> NoDup (map fst d) /\ Forall (fun kv => wf (snd kv)) d.
Proof. cbn [wf]. now rewrite wf_dict. Qed.
Lemma wf_rec c f x : wf (VRec c f x) <->
  NoDup (map fst f) /\ Forall (fun kv => wf (snd kv)) f /\ NoDup (map fst x) /\ Forall (fun kv => wf (snd kv)) x.
Proof. cbn [wf]. now rewrite !wf_dict. Qed.

Lemma items_refl d : NoDup (map fst d) -> Forall (fun kv => py_eq (snd kv) (snd kv) = true) d -> items_eq d d = true.
Proof.
  intros N F. unfold items_eq. apply forallb_forall. intros [k x] I. cbn [fst snd].
  rewrite (in_get d k x N I). rewrite Forall_forall in F. exact (F _ I).
Qed.

Lemma py_eq_refl v : wf v -> py_eq v v = true.
Proof.
  induction v as [|b|z|q|s|l IH|d IH|c f x IHf IHx] using val_ind'; intro W.
  - reflexivity.
  - cbn. now destruct b.
  - cbn [py_eq num_of]. apply Qeq_bool_refl.
  - cbn [py_eq num_of]. apply Qeq_bool_refl.
  - cbn. apply pystr_eqb_refl.
  - rewrite py_eq_seq. apply wf_seq in W. induction IH as [|x l Hx _ IHl]; [reflexivity|].
    inversion W; subst. cbn. rewrite Hx by assumption. now apply IHl.
  - rewrite py_eq_map, Nat.eqb_refl. apply wf_map in W as [N W]. cbn. apply items_refl; [exact N|].
    rewrite Forall_forall in *. auto.
  - rewrite py_eq_rec, pystr_eqb_refl, !Nat.eqb_refl. apply wf_rec in W as (N & W & N' & W').
    rewrite !items_refl; try assumption; try reflexivity; rewrite Forall_forall in *; auto.
Qed.

Lemma items_trans d e f :
  Forall (fun kv => forall b c, py_eq (snd kv) b = true -> py_eq b c = true -> py_eq (snd kv) c = true) d ->
  items_eq d e = true -> items_eq e f = true -> items_eq d f = true.
Proof.
  unfold items_eq. rewrite !forallb_forall, Forall_forall. intros H A B [k x] I. cbn [fst snd].
  specialize (A _ I). cbn [fst snd] in A. destruct (get e k) as [y|] eqn:E; [|discriminate].
  specialize (B _ (get_in _ _ _ E)). cbn [fst snd] in B. destruct (get f k) as [z|]; [|discriminate].
  exact (H _ I _ _ A B).
Qed.

Lemma py_eq_trans a b c : py_eq a b = true -> py_eq b c = true -> py_eq a c = true.
Proof.
  revert b c. induction a as [|x|x|x|s|l IH|d IH|k f x IHf IHx] using val_ind'; intros b c A B.
  - destruct b; try discriminate. exact B.
  - destruct b; try discriminate; destruct c; try discriminate; cbn [py_eq num_of] in *;
      apply Qeq_bool_iff in A; apply Qeq_bool_iff in B; apply Qeq_bool_iff; now rewrite A.
  - destruct b; try discriminate; destruct c; try discriminate; cbn [py_eq num_of] in *;
      apply Qeq_bool_iff in A; apply Qeq_bool_iff in B; apply Qeq_bool_iff; now rewrite A.
  - destruct b; try discriminate; destruct c; try discriminate; cbn [py_eq num_of] in *;
      apply Qeq_bool_iff in A; apply Qeq_bool_iff in B; apply Qeq_bool_iff; now rewrite A.
  - destruct b; try discriminate. cbn in A. apply pystr_eqb_eq in A. now subst.
  - destruct b as [| | | | |m| |]; try discriminate. destruct c as [| | | | |n| |]; try discriminate.
    rewrite py_eq_seq in *. revert m n A B. induction IH as [|x l Hx _ IHl]; intros [|y m] [|z n] A B; try discriminate; [reflexivity|].
    cbn in *. apply Bool.andb_true_iff in A as [A1 A2]. apply Bool.andb_true_iff in B as [B1 B2].
    rewrite (Hx _ _ A1 B1). exact (IHl _ _ A2 B2).
  - destruct b as [| | | | | |e|]; try discriminate. destruct c as [| | | | | |f|]; try discriminate.
    rewrite py_eq_map in *. apply Bool.andb_true_iff in A as [A1 A2]. apply Bool.andb_true_iff in B as [B1 B2].
    apply Nat.eqb_eq in A1. apply Nat.eqb_eq in B1. apply Bool.andb_true_iff. split; [apply Nat.eqb_eq; congruence|].
    exact (items_trans _ _ _ IH A2 B2).
  - destruct b as [| | | | | | |k' f' x']; try discriminate. destruct c as [| | | | | | |k'' f'' x'']; try discriminate.
    rewrite py_eq_rec in *. rewrite !Bool.andb_true_iff in *.
    destruct A as [[[[A1 A2] A3] A4] A5]. destruct B as [[[[B1 B2] B3] B4] B5].
    apply pystr_eqb_eq in A1. apply pystr_eqb_eq in B1. rewrite Nat.eqb_eq in *. subst.
    rewrite pystr_eqb_refl, A2, B2, A4, B4, !Nat.eqb_refl.
    rewrite (items_trans _ _ _ IHf A3 B3), (items_trans _ _ _ IHx A5 B5). repeat split.
Qed.

Lemma plain_wf v : plain v = true -> wf v.
Proof.
  induction v as [|b|z|q|s|l IH|d IH|c f x IHf IHx] using val_ind'; intro W; try exact Logic.I.
  - apply wf_seq. cbn in W. rewrite forallb_forall in W. rewrite Forall_forall in *. auto.
  - apply wf_map. cbn in W. apply Bool.andb_true_iff in W as [N W]. apply distinct_iff in N. split; [exact N|].
    rewrite forallb_forall in W. rewrite Forall_forall in *. auto.
  - discriminate.
Qed.

Lemma typed_wf k v : typed k v = true -> wf v.
Proof. destruct k, v; cbn [typed]; try discriminate; intro H; try exact Logic.I; apply plain_wf; exact H. Qed.

(** ** Schemas *)
Lemma key_in f : In (key f) (names f).
Proof.
  unfold key, names. destruct (alias f) as [k|]; [|now left].
  destruct (pystr_eqb k (attr f)) eqn:E; [|now left]. apply pystr_eqb_eq in E. subst. now left.
Qed.
Lemma attr_in f : In (attr f) (names f).
Proof.
  unfold names. destruct (alias f) as [k|]; [|now left].
  destruct (pystr_eqb k (attr f)); [now left|right; now left].
Qed.
Lemma names_iff f k : In k (names f) <-> k = key f \/ k = attr f.
Proof.
  split.
  - unfold names, key. destruct (alias f) as [a|]; cbn.
    + destruct (pystr_eqb a (attr f)); cbn; intuition.
    + intuition.
  - intros [->| ->]; [apply key_in|apply attr_in].
Qed.

Lemma names_all fs ft k : In ft fs -> In k (names (fst ft)) -> In k (all_names fs).
Proof. intros I J. apply in_flat_map. now exists ft. Qed.

(** Two fields sharing a name are the same. *)
Lemma names_unique fs : NoDup (all_names fs) -> forall ft gt k, In ft fs -> In gt fs ->
  In k (names (fst ft)) -> In k (names (fst gt)) -> ft = gt.
Proof.
  induction fs as [|ht fs IH]; [intros _ ? ? ? []|].
  intros N ft gt k I J A B. unfold all_names in N. cbn [flat_map] in N.
  assert (D : forall x, In x (names (fst ht)) -> ~ In x (all_names fs)).
  { intros x X Y. clear - N X Y. unfold all_names in Y. induction (names (fst ht)) as [|y l IHl]; [destruct X|].
    cbn in N. inversion N as [|? ? Z1 Z2]; subst. destruct X as [->|X]; [apply Z1; apply in_app_iff; now right|]. now apply IHl. }
  assert (N2 : NoDup (all_names fs)).
  { clear - N. unfold all_names. induction (names (fst ht)) as [|y l IHl]; [exact N|]. cbn in N. inversion N; subst. now apply IHl. }
  destruct I as [->|I], J as [->|J].
  - reflexivity.
  - exfalso. eapply D; [exact A|]. eapply names_all; eassumption.
  - exfalso. eapply D; [exact B|]. eapply names_all; eassumption.
  - eapply IH; eassumption.
Qed.

Lemma attrs_nodup fs : NoDup (all_names fs) -> NoDup (map (fun ft => attr (fst ft)) fs).
Proof.
  induction fs as [|ft fs IH]; cbn [map]; [constructor|].
  intro N. constructor.
  - intro I. apply in_map_iff in I as (gt & E & I).
    unfold all_names in N. cbn [flat_map] in N.
    assert (A : In (attr (fst ft)) (names (fst ft))) by apply attr_in.
    assert (B : In (attr (fst ft)) (all_names fs)) by (eapply names_all; [exact I|rewrite <- E; apply attr_in]).
    unfold all_names in B. induction (names (fst ft)) as [|y l IHl]; [destruct A|].
    cbn in N. inversion N as [|? ? Z1 Z2]; subst. destruct A as [->|A]; [apply Z1; apply in_app_iff; now right|now apply IHl].
  - apply IH. unfold all_names in *. cbn [flat_map] in N. induction (names (fst ft)) as [|y l IHl]; [exact N|].
    cbn in N. inversion N; subst. now apply IHl.
Qed.

Lemma keys_of_rows {fs : list (field * typ)} {r : list (pystr * val)} {R} :
  Forall2 (fun ft kv => fst kv = attr (fst ft) /\ R ft kv) fs r -> map fst r = map (fun ft => attr (fst ft)) fs.
Proof. induction 1 as [|ft kv fs r [E _] _ IH]; [reflexivity|]. cbn. now rewrite E, IH. Qed.

Lemma forall2_in_left {A B} (R : A -> B -> Prop) l m : Forall2 R l m -> forall x, In x l -> exists y, In y m /\ R x y.
Proof.
  induction 1 as [|a b l m H _ IH]; [intros ? []|]. intros x [->|I].
  - exists b. split; [now left|exact H].
  - destruct (IH _ I) as (y & J & K). exists y. split; [now right|exact K].
Qed.
Lemma forall2_in_right {A B} (R : A -> B -> Prop) l m : Forall2 R l m -> forall y, In y m -> exists x, In x l /\ R x y.
Proof.
  induction 1 as [|a b l m H _ IH]; [intros ? []|]. intros x [->|I].
  - exists a. split; [now left|exact H].
  - destruct (IH _ I) as (y & J & K). exists y. split; [now right|exact K].
Qed.

Lemma fits_wf t v : sane t -> fits t v -> wf v.
Proof.
  intro W. revert v. induction t as [k|t IH|t IH|c fs IH] using typ_ind'; intros v F;
    inversion F as [? ? T|?|? ? F1|? ? F1|? ? r ex F1 NE DE PE]; subst.
  - eapply typed_wf; exact T.
  - exact Logic.I.
  - inversion W; subst. now apply IH.
  - inversion W; subst. apply wf_seq. eapply Forall_impl; [|exact F1]. intros a Fa. now apply IH.
  - inversion W as [| | |? ? N S D]; subst. apply wf_rec. split; [|split; [|split]].
    + rewrite (keys_of_rows F1). now apply attrs_nodup.
    + apply Forall_forall. intros kv I. destruct (forall2_in_right _ _ _ F1 _ I) as (ft & J & E & K).
      rewrite Forall_forall in IH, S. apply (IH _ J); [now apply S|exact K].
    + exact NE.
    + eapply Forall_impl; [|exact PE]. intros kv P. now apply plain_wf.
Qed.

(** ** Unfolding dump and load *)
Definition part (xn xd : bool) (r : list (pystr * val)) (ft : field * typ) : list (pystr * val) :=
  match get r (attr (fst ft)) with
  | Some x => if trimmed xn xd (fst ft) x then [] else [(key (fst ft), dump xn xd (snd ft) x)]
  | None => []
  end.
Lemma dump_model xn xd c fs c' r ex :
  dump xn xd (Model c fs) (VRec c' r ex) = VMap (update (flat_map (part xn xd r) fs) (extras xn ex)).
Proof.
  cbn [dump]. do 2 f_equal. induction fs as [|[f t] fs IH]; [reflexivity|].
  cbn [flat_map]. unfold part at 1. cbn [fst snd].
  destruct (get r (attr f)) as [x|]; [|exact IH]. destruct (trimmed xn xd f x); [exact IH|].
  cbn [app]. now rewrite IH.
Qed.

Definition filled (lax : oracle) (con : bool) (d : list (pystr * val)) (ft : field * typ) : option (pystr * val) :=
  pick (fst ft) d (fun x => fallback con x (load lax con (snd ft) x)).
Definition from_dict (lax : oracle) (con : bool) (c : pystr) (fs : list (field * typ)) (d : list (pystr * val)) : option val :=
  match all_some (map (filled lax con d) fs) with
  | Some r => Some (VRec c r (filter (fun kv => negb (mem (fst kv) (used fs d))) d))
  | None => None
  end.
Lemma load_model lax con c fs v :
  load lax con (Model c fs) v =
  match v with
  | VMap d => from_dict lax con c fs d
  | VRec c' r ex => if pystr_eqb c c' then from_dict lax con c fs (update r ex) else None
  | _ => None
  end.
Proof.
  assert (H : forall d, (fix each (fs : list (field * typ)) : list (option (pystr * val)) :=
                 match fs with
                 | [] => []
                 | (f, t) :: fs' =>
                     pick f d (fun x => fallback con x (load lax con t x)) :: each fs'
                 end) fs = map (filled lax con d) fs).
  { intro d. induction fs as [|[f t] fs IH]; [reflexivity|]. cbn [map]. now rewrite IH. }
  destruct v; try reflexivity; cbn [load]; unfold from_dict; now rewrite H.
Qed.

Lemma all_some_map {A B} (f : A -> option B) (P : A -> B -> Prop) l :
  (forall x, In x l -> exists y, f x = Some y /\ P x y) -> exists m, all_some (map f l) = Some m /\ Forall2 P l m.
Proof.
  induction l as [|x l IH]; intro H; [exists []; split; [reflexivity|constructor]|].
  destruct (H x (or_introl eq_refl)) as (y & E & K). destruct IH as (m & Em & Km); [intros; apply H; now right|].
  exists (y :: m). cbn. rewrite E, Em. split; [reflexivity|now constructor].
Qed.

(** ** Reading back a record *)
Section Rows.
  Variables (fs : list (field * typ)) (r : list (pystr * val)).
  Hypothesis N : NoDup (all_names fs).
  Hypothesis K : map fst r = map (fun ft => attr (fst ft)) fs.

  Lemma row ft : In ft fs -> exists x, get r (attr (fst ft)) = Some x.
  Proof.
    intro I. destruct (get r (attr (fst ft))) as [x|] eqn:E; [now exists x|].
    apply get_none in E. rewrite K in E. exfalso. apply E. apply in_map_iff. now exists ft.
  Qed.

  Lemma part_key xn xd k v : In (k, v) (flat_map (part xn xd r) fs) -> exists ft, In ft fs /\ k = key (fst ft) /\ In (k, v) (part xn xd r ft).
  Proof.
    intro I. apply in_flat_map in I as (ft & I & J). exists ft. split; [exact I|]. split; [|exact J].
    unfold part in J. destruct (get r _); [|destruct J]. destruct (trimmed _ _ _ _); [destruct J|].
    destruct J as [J|[]]. now injection J.
  Qed.

  Lemma parts_nodup xn xd : NoDup (map fst (flat_map (part xn xd r) fs)).
  Proof.
    clear K. induction fs as [|ft fs' IH]; [constructor|]. cbn [flat_map]. rewrite map_app.
    assert (N2 : NoDup (all_names fs')).
    { clear - N. unfold all_names in *. cbn [flat_map] in N. induction (names (fst ft)) as [|y l IHl]; [exact N|]. cbn in N. inversion N; subst. now apply IHl. }
    specialize (IH N2). unfold part at 1. destruct (get r _) as [x|]; [|exact IH].
    destruct (trimmed _ _ _ _); [exact IH|]. cbn. constructor; [|exact IH].
    intro I. apply in_map_iff in I as ([k v] & E & I). cbn in E. subst k.
    apply in_flat_map in I as (gt & I & J).
    assert (E : key (fst ft) = key (fst gt)).
    { unfold part in J. destruct (get r _); [|destruct J]. destruct (trimmed _ _ _ _); [destruct J|]. destruct J as [J|[]]. now injection J. }
    unfold all_names in N. cbn [flat_map] in N.
    assert (A : In (key (fst ft)) (names (fst ft))) by apply key_in.
    assert (B : In (key (fst ft)) (flat_map (fun ft => names (fst ft)) fs')).
    { apply in_flat_map. exists gt. split; [exact I|]. rewrite E. apply key_in. }
    clear - N A B. induction (names (fst ft)) as [|y l IHl]; [destruct A|].
    cbn in N. inversion N as [|? ? Z1 Z2]; subst. destruct A as [->|A]; [apply Z1; apply in_app_iff; now right|now apply IHl].
  Qed.

  (** What is found under the name of a field in the exported dictionary. *)
  Lemma parts_get xn xd ft : In ft fs ->
    get (flat_map (part xn xd r) fs) (key (fst ft)) =
    match get r (attr (fst ft)) with
    | Some x => if trimmed xn xd (fst ft) x then None else Some (dump xn xd (snd ft) x)
    | None => None
    end.
  Proof.
    intro I. destruct (get (flat_map (part xn xd r) fs) (key (fst ft))) as [v|] eqn:G.
    - apply get_in in G. apply part_key in G as (gt & J & E & G).
      assert (gt = ft).
      { eapply names_unique; try eassumption; [apply key_in|]. rewrite <- E. apply key_in. }
      subst gt. unfold part in G. destruct (get r _) as [x|]; [|destruct G].
      destruct (trimmed _ _ _ _); [destruct G|]. destruct G as [G|[]]. now injection G as ->.
    - destruct (get r (attr (fst ft))) as [x|] eqn:X; [|reflexivity]. destruct (trimmed xn xd (fst ft) x) eqn:T; [reflexivity|].
      apply get_none in G. exfalso. apply G. apply in_map_iff. exists (key (fst ft), dump xn xd (snd ft) x).
      split; [reflexivity|]. apply in_flat_map. exists ft. split; [exact I|]. unfold part. rewrite X, T. now left.
  Qed.

  Lemma parts_attr xn xd ft : In ft fs -> attr (fst ft) <> key (fst ft) -> get (flat_map (part xn xd r) fs) (attr (fst ft)) = None.
  Proof.
    intros I D. apply get_none. intro J. apply in_map_iff in J as ([k v] & E & J). cbn in E. subst k.
    apply part_key in J as (gt & J & E & _). assert (gt = ft).
    { eapply names_unique; try eassumption; [|apply attr_in]. rewrite E. apply key_in. }
    subst. tauto.
  Qed.

  Lemma parts_names xn xd k : In k (map fst (flat_map (part xn xd r) fs)) -> In k (all_names fs).
  Proof.
    intro I. apply in_map_iff in I as ([k' v] & E & I). cbn in E. subst k'.
    apply part_key in I as (ft & I & -> & _). eapply names_all; [exact I|apply key_in].
  Qed.
End Rows.

Lemma used_names fs d k : In k (used fs d) -> In k (all_names fs).
Proof.
  unfold used. intro I. apply in_flat_map in I as (ft & I & J). unfold lookup in J.
  destruct (get d (key (fst ft))).
  - destruct J as [<-|[]]. eapply names_all; [exact I|apply key_in].
  - destruct (get d (attr (fst ft))); [|destruct J]. destruct J as [<-|[]]. eapply names_all; [exact I|apply attr_in].
Qed.

(** What is left over of a dictionary made of used keys and strangers. *)
Lemma leftover fs (d ex : list (pystr * val)) :
  (forall k, In k (map fst d) -> In k (used fs (d ++ ex))) ->
  (forall k, In k (map fst ex) -> ~ In k (all_names fs)) ->
  filter (fun kv => negb (mem (fst kv) (used fs (d ++ ex)))) (d ++ ex) = ex.
Proof.
  intros A B. rewrite filter_app.
  assert (E1 : filter (fun kv => negb (mem (fst kv) (used fs (d ++ ex)))) d = []).
  { remember (used fs (d ++ ex)) as u. clear Hequ. induction d as [|[k v] d IH]; [reflexivity|].
    cbn [filter fst]. rewrite (proj2 (mem_iff k u)) by (apply A; now left). cbn. apply IH. intros. apply A. now right. }
  rewrite E1. cbn [app].
  assert (A' : forall k, In k (map fst ex) -> ~ In k (used fs (d ++ ex))).
  { intros k I J. apply (B _ I). eapply used_names; exact J. }
  remember (used fs (d ++ ex)) as u. clear - A'. induction ex as [|[k v] ex IH]; [reflexivity|].
  cbn [filter fst]. rewrite (proj2 (mem_out k u)) by (apply A'; now left). cbn. f_equal. apply IH. intros. apply A'. now right.
Qed.

Lemma extras_keys xn ex k : In k (map fst (extras xn ex)) -> In k (map fst ex).
Proof.
  unfold extras. intro I. apply in_map_iff in I as (kv & E & I). apply filter_In in I as [I _].
  apply in_map_iff. now exists kv.
Qed.
Lemma extras_nodup xn ex : NoDup (map fst ex) -> NoDup (map fst (extras xn ex)).
Proof.
  unfold extras. induction ex as [|[k v] ex IH]; [trivial|]. cbn. intro N. inversion N as [|? ? Z1 Z2]; subst.
  destruct (negb _); [|now apply IH]. cbn. constructor; [|now apply IH].
  intro I. apply Z1. exact (extras_keys xn ex k I).
Qed.
Lemma extras_all xn ex : (xn = true -> Forall (fun kv => snd kv <> VNone) ex) -> extras xn ex = ex.
Proof.
  unfold extras. destruct xn; intro H.
  - specialize (H eq_refl). induction H as [|[k v] ex Hx _ IH]; [reflexivity|]. cbn in *. destruct v; try tauto; cbn; now rewrite IH.
  - clear H. induction ex as [|kv ex IH]; [reflexivity|]. cbn [filter andb negb] in *. now rewrite IH.
Qed.

(** ** Reading an instance again *)
Lemma load_same lax con t v : sane t -> fits t v -> load lax con t v = Some v.
Proof.
  intro W. revert v. induction t as [k|t IH|t IH|c fs IH] using typ_ind'; intros v F; inversion F as [? ? T|?|? ? F1|? ? F1|? ? r ex F1 NE DE PE]; subst.
  - cbn. unfold convert. now rewrite T.
  - reflexivity.
  - cbn [load]. inversion W; subst. destruct (is_none v) eqn:E; [destruct v; try discriminate; reflexivity|now apply IH].
  - inversion W; subst. cbn [load]. assert (E : all_some (map (load lax con t) l) = Some l).
    { clear F. induction F1 as [|x l Fx _ IHl]; [reflexivity|]. cbn. now rewrite (IH ltac:(assumption) _ Fx), IHl. }
    now rewrite E.
  - inversion W as [| | |? ? N S D]; subst. rewrite load_model, pystr_eqb_refl.
    pose proof (keys_of_rows F1) as K.
    assert (ND : NoDup (map fst r)) by (rewrite K; now apply attrs_nodup).
    assert (DA : forall k, In k (map fst r) -> In k (all_names fs)).
    { intros k I. rewrite K in I. apply in_map_iff in I as (ft & <- & I). eapply names_all; [exact I|apply attr_in]. }
    rewrite update_app; [|exact NE|intros k I J; exact (DE _ I (DA _ J))].
    assert (L : forall ft kv, In ft fs -> In kv r -> fst kv = attr (fst ft) -> lookup (fst ft) (r ++ ex) = Some (fst kv, snd kv)).
    { intros ft [k x] I J E. cbn in E. subst k. cbn [fst snd]. unfold lookup. rewrite !get_app.
      rewrite (in_get _ _ _ ND J).
      destruct (pystr_eqb (key (fst ft)) (attr (fst ft))) eqn:Q.
      - apply pystr_eqb_eq in Q. rewrite Q, (in_get _ _ _ ND J). reflexivity.
      - assert (Q' : key (fst ft) <> attr (fst ft)) by (intro Z; rewrite Z, pystr_eqb_refl in Q; discriminate).
        assert (G1 : get r (key (fst ft)) = None).
        { apply get_none. rewrite K. intro I2. apply in_map_iff in I2 as (gt & E & I2).
          assert (gt = ft) by (apply (names_unique fs N gt ft (key (fst ft)) I2 I); [rewrite <- E; apply attr_in|apply key_in]). subst. congruence. }
        assert (G2 : get ex (key (fst ft)) = None).
        { apply get_none. intro I2. apply (DE _ I2). eapply names_all; [exact I|apply key_in]. }
        now rewrite G1, G2. }
    unfold from_dict.
    assert (E : all_some (map (filled lax con (r ++ ex)) fs) = Some r).
    { assert (G : forall fs1 r1, Forall2 (fun ft kv => fst kv = attr (fst ft) /\ fits (snd ft) (snd kv)) fs1 r1 ->
        (forall ft, In ft fs1 -> In ft fs) -> (forall kv, In kv r1 -> In kv r) ->
        all_some (map (filled lax con (r ++ ex)) fs1) = Some r1); [|exact (G fs r F1 (fun _ H => H) (fun _ H => H))].
      intros fs1 r1 F2. induction F2 as [|ft kv fs1 r1 [E Fx] F2 IHr]; intros Hin Hinr; [reflexivity|].
      cbn [map all_some]. rewrite IHr; [|intros; apply Hin; now right|intros; apply Hinr; now right].
      unfold filled, pick. rewrite (L ft kv); [|apply Hin; now left|apply Hinr; now left|exact E].
      rewrite Forall_forall in IH, S. rewrite (IH ft); [|apply Hin; now left|apply S, Hin; now left|exact Fx].
      cbn. rewrite <- E. now destruct kv. }
    rewrite E, leftover; [reflexivity| |exact DE].
    intros k I. apply in_map_iff in I as (kv & <- & I).
    destruct (forall2_in_right _ _ _ F1 _ I) as (ft & J & E2 & _).
    unfold used. apply in_flat_map. exists ft. split; [exact J|]. rewrite (L ft kv J I E2). now left.
Qed.

(** ** Reading back a trimmed export *)
Lemma trimmed_spec xn xd f x : trimmed xn xd f x = true ->
  (xn = true -> x = VNone -> default f = Some VNone) -> (hidden f = true -> default f = Some x) ->
  wf x -> exists d, default f = Some d /\ py_eq x d = true.
Proof.
  unfold trimmed. intros T A B W. apply Bool.orb_true_iff in T as [T|T].
  - apply Bool.orb_true_iff in T as [T|T].
    + exists x. split; [now apply B|now apply py_eq_refl].
    + apply Bool.andb_true_iff in T as [T1 T2]. destruct x; try discriminate. exists VNone. split; [now apply A|reflexivity].
  - apply Bool.andb_true_iff in T as [T1 T2]. unfold is_default in T2. destruct (default f) as [d|]; [|discriminate]. now exists d.
Qed.

Lemma forall2_and {A B} (P Q : A -> B -> Prop) l m : Forall2 P l m -> Forall2 Q l m -> Forall2 (fun x y => P x y /\ Q x y) l m.
Proof. induction 1; intro G; inversion G; subst; constructor; auto. Qed.
Lemma forall2_impl_in {A B} (P Q : A -> B -> Prop) l m :
  (forall x y, In x l -> In y m -> P x y -> Q x y) -> Forall2 P l m -> Forall2 Q l m.
Proof.
  intros H F. induction F as [|x y l m p F IH]; [constructor|]. constructor; [apply H; [now left|now left|exact p]|].
  apply IH. intros. apply H; try (now right). assumption.
Qed.

Lemma dump_not_none xn xd t v : is_none v = false -> is_none (dump xn xd t v) = false.
Proof.
  induction t as [k|t IH|t IH|c fs IH] using typ_ind'; intro E; cbn [dump]; [exact E|now apply IH| |]; destruct v; easy.
Qed.

Lemma roundtrip lax con xn xd t x : sane t -> fits t x -> intact xn t x ->
  exists y, load lax con t (dump xn xd t x) = Some y /\ fits t y /\ py_eq x y = true.
Proof.
  intro W. revert x. induction t as [k|t IH|t IH|c fs IH] using typ_ind'; intros v F I.
  - inversion F as [? ? T| | | |]; subst. exists v. cbn. unfold convert. rewrite T.
    split; [reflexivity|]. split; [exact F|]. apply py_eq_refl. eapply typed_wf; exact T.
  - inversion W as [|? W'| |]; subst. cbn [dump load].
    destruct (is_none v) eqn:E.
    { destruct v; try discriminate. assert (D : dump xn xd t VNone = VNone).
      { clear. induction t using typ_ind'; try reflexivity. cbn. assumption. }
      rewrite D. exists VNone. split; [reflexivity|]. split; [constructor|reflexivity]. }
    assert (F' : fits t v) by (inversion F; subst; [discriminate|assumption]).
    assert (I' : intact xn t v) by (inversion I; subst; [discriminate|assumption]).
    destruct (IH W' v F' I') as (y & L & Fy & E2). rewrite L.
    rewrite (dump_not_none xn xd t v E). exists y. split; [reflexivity|]. split; [now constructor|exact E2].
  - inversion W as [| |? W'|]; subst. inversion F as [| | |? l F1|]; subst. inversion I as [| | |? ? I1|]; subst.
    cbn [dump load]. assert (A : exists m, all_some (map (load lax con t) (map (dump xn xd t) l)) = Some m /\ Forall (fits t) m /\ seq_eq l m = true).
    { induction F1 as [|x l Fx F1 IHl]; [exists []; split; [reflexivity|split; [constructor|reflexivity]]|].
      inversion I1; subst. destruct (IH W' x Fx ltac:(assumption)) as (y & L & Fy & E).
      destruct IHl as (m & L2 & Fm & E2); [now constructor|now constructor|assumption|].
      exists (y :: m). cbn. rewrite L, L2, E, E2. split; [reflexivity|]. split; [now constructor|reflexivity]. }
    destruct A as (m & A & Fm & E). rewrite A. exists (VSeq m). split; [reflexivity|]. split; [now constructor|]. now rewrite py_eq_seq.
  - inversion W as [| | |? ? N S D]; subst. inversion F as [| | | |? ? r ex F1 NE DE PE]; subst.
    inversion I as [| | | |? ? ? ? ? I1 I2]; subst.
    rewrite dump_model, load_model, (extras_all xn ex I2).
    pose proof (keys_of_rows F1) as K.
    rewrite update_app; [|exact NE|intros k A B; apply (DE _ A); exact (parts_names fs r xn xd k B)].
    set (d := flat_map (part xn xd r) fs).
    assert (ND : NoDup (map fst r)) by (rewrite K; now apply attrs_nodup).
    assert (XK : forall ft, In ft fs -> get ex (key (fst ft)) = None).
    { intros ft J. apply get_none. intro A. apply (DE _ A). eapply names_all; [exact J|apply key_in]. }
    assert (XA : forall ft, In ft fs -> get ex (attr (fst ft)) = None).
    { intros ft J. apply get_none. intro A. apply (DE _ A). eapply names_all; [exact J|apply attr_in]. }
    assert (L : forall ft x, In ft fs -> get r (attr (fst ft)) = Some x ->
      lookup (fst ft) (d ++ ex) = if trimmed xn xd (fst ft) x then None else Some (key (fst ft), dump xn xd (snd ft) x)).
    { intros ft x J G. unfold lookup. rewrite !get_app. unfold d. rewrite (parts_get fs r N xn xd ft J), G.
      destruct (trimmed xn xd (fst ft) x) eqn:T; [|reflexivity]. rewrite (XK ft J), (XA ft J).
      destruct (pystr_eqb (attr (fst ft)) (key (fst ft))) eqn:Q.
      - apply pystr_eqb_eq in Q. rewrite Q. rewrite (parts_get fs r N xn xd ft J), G, T. reflexivity.
      - rewrite (parts_attr fs r N xn xd ft J); [reflexivity|]. intro Z. rewrite Z, pystr_eqb_refl in Q. discriminate. }
    assert (A : exists m, all_some (map (filled lax con (d ++ ex)) fs) = Some m /\
        Forall2 (fun ft kv => (fst kv = attr (fst ft) /\ fits (snd ft) (snd kv)) /\
          exists x, get r (attr (fst ft)) = Some x /\ py_eq x (snd kv) = true) fs m).
    { apply all_some_map. intros ft J.
      destruct (forall2_in_left _ _ _ (forall2_and _ _ _ _ F1 I1) ft J) as ([k x] & Jr & (E & Fx) & C1 & C2 & Ix).
      cbn [fst snd] in *. subst k. pose proof (in_get _ _ _ ND Jr) as G.
      rewrite Forall_forall in IH, S.
      unfold filled, pick. rewrite (L ft x J G). destruct (trimmed xn xd (fst ft) x) eqn:T.
      - destruct (trimmed_spec _ _ _ _ T C1 C2) as (dv & E1 & E2); [eapply fits_wf; [apply S; exact J|exact Fx]|].
        rewrite E1. eexists. split; [reflexivity|]. cbn [fst snd]. split; [split; [reflexivity|]|].
        + destruct ft as [f t]. eapply D; [exact J|exact E1].
        + exists x. now split.
      - destruct (IH ft J (S ft J) x Fx Ix) as (y & Ly & Fy & Ey). rewrite Ly. cbn.
        eexists. split; [reflexivity|]. cbn [fst snd]. split; [now split|]. exists x. now split. }
    destruct A as (m & A & R). unfold from_dict. rewrite A, leftover; [|  |exact DE].
    + exists (VRec c m ex). split; [reflexivity|].
      assert (R1 : Forall2 (fun ft kv => fst kv = attr (fst ft) /\ fits (snd ft) (snd kv)) fs m)
        by (eapply forall2_impl_in; [|exact R]; intros ? ? _ _ [H _]; exact H).
      split; [now constructor|].
      pose proof (keys_of_rows R1) as K'.
      assert (NM : NoDup (map fst m)) by (rewrite K'; now apply attrs_nodup).
      rewrite py_eq_rec, pystr_eqb_refl.
      assert (E1 : List.length r = List.length m) by (rewrite <- (map_length fst r), <- (map_length fst m); congruence).
      rewrite E1, !Nat.eqb_refl.
      rewrite (items_refl ex NE); [|eapply Forall_impl; [|exact PE]; intros; apply py_eq_refl, plain_wf; assumption].
      cbn. rewrite !Bool.andb_true_r. unfold items_eq. apply forallb_forall. intros [k x] J. cbn [fst snd].
      destruct (forall2_in_right _ _ _ F1 _ J) as (ft & Jf & E & _). cbn in E. subst k.
      destruct (forall2_in_left _ _ _ R _ Jf) as ([k y] & Jm & (E & _) & x' & G & Q). cbn [fst snd] in *. subst k.
      rewrite (in_get _ _ _ ND J) in G. injection G as <-.
      now rewrite (in_get _ _ _ NM Jm).
    + intros k J. apply in_map_iff in J as ([k' v] & E & J). cbn in E. subst k'.
      unfold d in J. apply part_key in J as (ft & Jf & Ek & J).
      unfold part in J. destruct (get r (attr (fst ft))) as [x|] eqn:G; [|destruct J].
      destruct (trimmed xn xd (fst ft) x) eqn:T; [destruct J|].
      unfold used. apply in_flat_map. exists ft. split; [exact Jf|]. rewrite (L ft x Jf G), T. rewrite Ek. now left.
Qed.

(** ** What trimming loses *)
Lemma export_lookup xn xd c fs r ex ft x : sane (Model c fs) -> fits (Model c fs) (VRec c r ex) ->
  In ft fs -> get r (attr (fst ft)) = Some x ->
  lookup (fst ft) (flat_map (part xn xd r) fs ++ extras xn ex) =
  if trimmed xn xd (fst ft) x then None else Some (key (fst ft), dump xn xd (snd ft) x).
Proof.
  intros W F J G. inversion W as [| | |? ? N S D]; subst. inversion F as [| | | |? ? ? ? F1 NE DE PE]; subst.
  assert (XK : forall k, In k (names (fst ft)) -> get (extras xn ex) k = None).
  { intros k Hk. apply get_none. intro A. apply (DE _ (extras_keys _ _ _ A)). eapply names_all; [exact J|exact Hk]. }
  unfold lookup. rewrite !get_app. rewrite (parts_get fs r N xn xd ft J), G.
  destruct (trimmed xn xd (fst ft) x) eqn:T; [|reflexivity].
  rewrite (XK _ (key_in _)), (XK _ (attr_in _)).
  destruct (pystr_eqb (attr (fst ft)) (key (fst ft))) eqn:Q.
  - apply pystr_eqb_eq in Q. rewrite Q. rewrite (parts_get fs r N xn xd ft J), G, T. reflexivity.
  - rewrite (parts_attr fs r N xn xd ft J); [reflexivity|]. intro Z. rewrite Z, pystr_eqb_refl in Q. discriminate.
Qed.

Lemma dump_flat xn xd c fs r ex : sane (Model c fs) -> fits (Model c fs) (VRec c r ex) ->
  dump xn xd (Model c fs) (VRec c r ex) = VMap (flat_map (part xn xd r) fs ++ extras xn ex).
Proof.
  intros W F. inversion F as [| | | |? ? ? ? F1 NE DE PE]; subst. rewrite dump_model, update_app; [reflexivity|now apply extras_nodup|].
  intros k A B. apply (DE _ (extras_keys _ _ _ A)). exact (parts_names fs r xn xd k B).
Qed.

Lemma all_some_in {A B} (f : A -> option B) l m : all_some (map f l) = Some m -> forall x, In x l -> exists y, f x = Some y /\ In y m.
Proof.
  revert m. induction l as [|a l IH]; intros m H x I; [destruct I|]. cbn in H.
  destruct (f a) as [b|] eqn:E; [|discriminate]. destruct (all_some (map f l)) as [m'|]; [|discriminate].
  injection H as <-. destruct I as [->|I]; [exists b; split; [exact E|now left]|].
  destruct (IH _ eq_refl _ I) as (y & H1 & H2). exists y. split; [exact H1|now right].
Qed.

Lemma filled_attr lax con d ft kv : filled lax con d ft = Some kv -> fst kv = attr (fst ft).
Proof.
  unfold filled, pick. destruct (lookup _ _) as [[? ?]|].
  - destruct (fallback _ _ _); [|discriminate]. now intros [= <-].
  - destruct (default _); [|discriminate]. now intros [= <-].
Qed.

Lemma filled_keys lax con d fs m : all_some (map (filled lax con d) fs) = Some m -> map fst m = map (fun ft => attr (fst ft)) fs.
Proof.
  revert m. induction fs as [|ft fs IH]; intros m H; cbn in H; [now injection H as <-|].
  destruct (filled lax con d ft) as [kv|] eqn:E; [|discriminate]. destruct (all_some (map _ fs)) as [m'|]; [|discriminate].
  injection H as <-. cbn. rewrite (filled_attr _ _ _ _ _ E), (IH m' eq_refl). reflexivity.
Qed.

Lemma trimmed_default lax con xn xd c fs r ex r' ex' ft x :
  sane (Model c fs) -> fits (Model c fs) (VRec c r ex) -> In ft fs -> get r (attr (fst ft)) = Some x ->
  trimmed xn xd (fst ft) x = true ->
  load lax con (Model c fs) (dump xn xd (Model c fs) (VRec c r ex)) = Some (VRec c r' ex') ->
  get r' (attr (fst ft)) = default (fst ft).
Proof.
  intros W F J G T L. rewrite (dump_flat xn xd c fs r ex W F), load_model in L. unfold from_dict in L.
  destruct (all_some _) as [m|] eqn:A; [|discriminate]. injection L as <- _.
  destruct (all_some_in _ _ _ A _ J) as (kv & E & I). pose proof (filled_attr _ _ _ _ _ E) as K.
  unfold filled, pick in E. rewrite (export_lookup xn xd c fs r ex ft x W F J G), T in E.
  destruct (default (fst ft)) as [d|]; [|discriminate]. injection E as <-.
  apply in_get; [|exact I]. rewrite (filled_keys _ _ _ _ _ A). inversion W; subst. now apply attrs_nodup.
Qed.

Lemma trimmed_required lax con xn xd c fs r ex ft x :
  sane (Model c fs) -> fits (Model c fs) (VRec c r ex) -> In ft fs -> get r (attr (fst ft)) = Some x ->
  trimmed xn xd (fst ft) x = true -> default (fst ft) = None ->
  load lax con (Model c fs) (dump xn xd (Model c fs) (VRec c r ex)) = None.
Proof.
  intros W F J G T D. rewrite (dump_flat xn xd c fs r ex W F), load_model. unfold from_dict.
  destruct (all_some _) as [m|] eqn:A; [|reflexivity].
  destruct (all_some_in _ _ _ A _ J) as (kv & E & I).
  unfold filled, pick in E. rewrite (export_lookup xn xd c fs r ex ft x W F J G), T, D in E. discriminate.
Qed.

Lemma load_extras lax con c fs d r' ex' k :
  load lax con (Model c fs) (VMap d) = Some (VRec c r' ex') -> ~ In k (map fst d) -> get ex' k = None.
Proof.
  rewrite load_model. unfold from_dict. destruct (all_some _); [|discriminate]. intros [= <- <-] H.
  apply get_none. intro I. apply H. apply in_map_iff in I as (kv & E & I). apply filter_In in I as [I _].
  apply in_map_iff. now exists kv.
Qed.

Lemma cleared_extra lax con xd c fs r ex r' ex' k :
  sane (Model c fs) -> fits (Model c fs) (VRec c r ex) -> get ex k = Some VNone ->
  load lax con (Model c fs) (dump true xd (Model c fs) (VRec c r ex)) = Some (VRec c r' ex') -> get ex' k = None.
Proof.
  intros W F G L. rewrite (dump_flat true xd c fs r ex W F) in L.
  inversion F as [| | | |? ? ? ? F1 NE DE PE]; subst. apply (load_extras _ _ _ _ _ _ _ k L).
  rewrite map_app, in_app_iff. pose proof (get_in _ _ _ G) as I. intros [H|H].
  - apply (DE k); [apply in_map_iff; now exists (k, VNone)|exact (parts_names fs r true xd k H)].
  - apply in_map_iff in H as ([k' v] & E & H). cbn in E. subst k'. unfold extras in H. apply filter_In in H as [H1 H2].
    rewrite (in_get ex k v NE H1) in G. injection G as ->. discriminate.
Qed.

Lemma cleared_default lax con xd c fs r ex r' ex' f t :
  sane (Model c fs) -> fits (Model c fs) (VRec c r ex) -> In (f, t) fs -> get r (attr f) = Some VNone \/ hidden f = true ->
  load lax con (Model c fs) (dump true xd (Model c fs) (VRec c r ex)) = Some (VRec c r' ex') ->
  get r' (attr f) = default f.
Proof.
  intros W F I C. inversion F as [| | | |? ? ? ? F1 NE DE PE]; subst.
  destruct (row fs r (keys_of_rows F1) (f, t) I) as (x & G). cbn [fst] in G.
  apply (trimmed_default lax con true xd c fs r ex r' ex' (f, t) x W F I G). cbn [fst]. unfold trimmed.
  destruct C as [C|C]; [|now rewrite C]. rewrite C in G. injection G as <-. cbn. now rewrite orb_true_r.
Qed.
Lemma cleared_required lax con xd c fs r ex f t :
  sane (Model c fs) -> fits (Model c fs) (VRec c r ex) -> In (f, t) fs -> get r (attr f) = Some VNone -> default f = None ->
  load lax con (Model c fs) (dump true xd (Model c fs) (VRec c r ex)) = None.
Proof.
  intros W F I G D. apply (trimmed_required lax con true xd c fs r ex (f, t) VNone W F I G); [|exact D].
  unfold trimmed. cbn. now rewrite orb_true_r.
Qed.
