(** Entities that do not come back (C48). *)
From Coq Require Import ZArith QArith String List Bool Lia.
From Verif Require Import Common Dict Trim_Model Trim_Spec Trim_Proofs Trim_Classes Trim_Check Trim_Class_Proofs.
Import ListNotations.
Local Open Scope string_scope.
Local Open Scope list_scope.
Local Open Scope bool_scope.

(** Deciding [intact true]. *)
Fixpoint intactb (t : typ) (v : val) {struct t} : bool :=
  match t with
  | Plain k => true
  | Opt t => is_none v || intactb t v
  | ListOf t => match v with VSeq l => forallb (intactb t) l | _ => false end
  | Model c fs =>
      match v with
      | VRec c' r ex =>
          ((fix rows (fs : list (field * typ)) (r : list (pystr * val)) {struct fs} : bool :=
              match fs, r with
              | [], [] => true
              | (f, t) :: fs', (k, x) :: r' =>
                  (negb (is_none x) || match default f with Some VNone => true | _ => false end) &&
                  (negb (hidden f) || is_none x && match default f with Some VNone => true | _ => false end) && intactb t x && rows fs' r'
              | _, _ => false
              end) fs r) &&
          forallb (fun kv => negb (is_none (snd kv))) ex
      | _ => false
      end
  end.
Fixpoint irows (fs : list (field * typ)) (r : list (pystr * val)) {struct fs} : bool :=
  match fs, r with
  | [], [] => true
  | (f, t) :: fs', (k, x) :: r' =>
      (negb (is_none x) || match default f with Some VNone => true | _ => false end) &&
      (negb (hidden f) || is_none x && match default f with Some VNone => true | _ => false end) && intactb t x && irows fs' r'
  | _, _ => false
  end.
Lemma intactb_model c fs c' r ex : intactb (Model c fs) (VRec c' r ex) = irows fs r && forallb (fun kv => negb (is_none (snd kv))) ex.
Proof. reflexivity. Qed.
Lemma not_none v : is_none v = false -> v <> VNone.
Proof. now destruct v. Qed.

Lemma intactb_intact t v : intactb t v = true -> intact true t v.
Proof.
  revert v. induction t as [k|t IH|t IH|c fs IH] using typ_ind'; intros v H.
  - constructor.
  - cbn in H. apply orb_true_iff in H as [H|H]; [destruct v; try discriminate; constructor|now constructor; apply IH].
  - destruct v; try discriminate. constructor. cbn in H. rewrite forallb_forall in H. rewrite Forall_forall. auto.
  - destruct v as [| | | | | | |c' r ex]; try discriminate. rewrite intactb_model in H. apply andb_true_iff in H as [H1 H2]. constructor.
    + clear H2. revert r H1. induction fs as [|[f t] fs IHf]; intros [|[k x] r] H; try discriminate; [constructor|].
      cbn in H. rewrite !andb_true_iff in H. destruct H as [[[A B] C] D]. inversion IH; subst. constructor; [|now apply IHf].
      cbn [fst snd]. split; [|split].
      * intros _ ->. cbn in A. destruct (default f) as [[]|]; try discriminate. reflexivity.
      * intro H. rewrite H in B. cbn [negb orb] in B. destruct x; try discriminate. destruct (default f) as [[]|]; try discriminate. reflexivity.
      * cbn in *. auto.
    + intros _. rewrite forallb_forall in H2. apply Forall_forall. intros kv I. apply not_none. apply negb_true_iff. now apply H2.
Qed.

(** Deciding [uncleared] for entities without extra fields. *)
Definition unclearedb (c : class_) (r : list (pystr * val)) : bool :=
  fitsb (format c) (VRec (c_name c) r []) &&
  forallb (fun ft => hidden (fst ft) ||
    match get r (attr (fst ft)) with
    | Some v => (negb (is_none v) || match default (fst ft) with Some VNone => true | _ => false end) && intactb (snd ft) v
    | None => false
    end) (c_fields c).
Lemma unclearedb_ok c r : unclearedb c r = true -> uncleared c r [].
Proof.
  unfold unclearedb. intro H. apply andb_true_iff in H as [H1 H2]. split; [now apply fitsb_fits|]. split; [|discriminate].
  intros f t v I H G. rewrite forallb_forall in H2. specialize (H2 (f, t) I). cbn [fst snd] in H2. rewrite H, G in H2. cbn [orb] in H2.
  apply andb_true_iff in H2 as [A B]. split; [|now apply intactb_intact].
  intros ->. cbn in A. destruct (default f) as [[]|]; try discriminate. reflexivity.
Qed.

(** An entity of a class with everything at its default, apart from some fields. *)
Definition at_origin : val := VRec (str "FloatPosition") [(str "x", VFloat (1 # 2)); (str "y", VFloat (1 # 2))] [].
Definition sample (c : class_) (changes : list (pystr * val)) : list (pystr * val) :=
  map (fun ft =>
    (attr (fst ft),
     match get changes (attr (fst ft)) with
     | Some v => v
     | None =>
         match default (fst ft) with
         | Some d => d
         | None =>
             if pystr_eqb (attr (fst ft)) (str "name") then VStr (str "thing")
             else if pystr_eqb (attr (fst ft)) (str "position") then at_origin
             else VInt 0
         end
     end)) (c_fields c).
Definition find_class (n : pystr) : option class_ := find (fun c => pystr_eqb (c_name c) n) entity_classes.

Lemma all_unclearedb : forallb (fun c => unclearedb c (sample c [])) entity_classes = true.
Proof. vm_compute. reflexivity. Qed.

Lemma default_uncleared c : In c entity_classes -> uncleared c (sample c []) [].
Proof. intro I. apply unclearedb_ok. pose proof all_unclearedb as A. rewrite forallb_forall in A. now apply A. Qed.

Lemma invalid_fail :
  Forall cannot_return [c_ArtilleryTurret; c_Car; c_ElectricTurret; c_FluidTurret; c_SpiderVehicle; c_Turret; c_LogisticStorageContainer].
Proof.
  repeat (apply Forall_cons); [..|apply Forall_nil];
    match goal with |- cannot_return ?c => exists (sample c []) end; (split; [apply unclearedb_ok; vm_compute; reflexivity|intros lax; vm_compute; reflexivity]).
Qed.

Lemma change c a chg v : unclearedb c (sample c chg) = true -> get (sample c chg) a = Some v ->
  (forall lax, exists r' ex' v',
      reimport lax c (to_dict true true c (VRec (c_name c) (sample c chg) [])) = Some (VRec (c_name c) r' ex') /\
      get r' a = Some v' /\ py_eq v v' = false) -> field_changes c a.
Proof. intros A B C. exists (sample c chg), v. split; [now apply unclearedb_ok|]. now split. Qed.

Lemma lost_change :
  Forall (fun ca => field_changes (fst ca) (snd ca))
    [(c_ArtilleryWagon, str "enable_logistics_while_moving");
     (c_AssemblingMachine, str "recipe_quality");
     (c_CargoLandingPad, str "request_filters");
     (c_SpacePlatformHub, str "request_filters");
     (c_Inserter, str "filters");
     (c_RocketSilo, str "recipe")].
Proof.
  repeat (apply Forall_cons); [..|apply Forall_nil]; cbn [fst snd];
  (eapply (change _ _ []); [vm_compute; reflexivity|vm_compute; reflexivity|]; intro lax; eexists _, _, _;
   split; [vm_compute; reflexivity|split; vm_compute; reflexivity]).
Qed.

Lemma chunk_filter_change : field_changes c_AsteroidCollector (str "chunk_filter").
Proof.
  eapply (change _ _ [(str "chunk_filter", VSeq [VRec (str "AsteroidChunkID") [(str "index", VInt 1); (str "name", VStr (str "metallic"))] []])]);
    [vm_compute; reflexivity|vm_compute; reflexivity|]; intro lax; eexists _, _, _;
   (split; [vm_compute; reflexivity|split; vm_compute; reflexivity]).
Qed.

Lemma loader_change : field_changes c_Loader (str "io_type").
Proof.
  eapply (change _ _ [(str "io_type", VStr (str "output"))]);
    [vm_compute; reflexivity|vm_compute; reflexivity|]; intro lax; eexists _, _, _;
   (split; [vm_compute; reflexivity|split; vm_compute; reflexivity]).
Qed.

(** ** Electric energy interface *)
Lemma to_dict_nodup xn xd c v : sane (format c) -> fits (format c) v -> NoDup (map fst (to_dict xn xd c v)).
Proof.
  intros W F. unfold to_dict. inversion F as [| | | |? ? r ex F1 NE DE PE]; subst. unfold format in *. rewrite dump_flat by assumption.
  inversion W as [| | |? ? N _ _]; subst.
  assert (D : NoDup (map fst (flat_map (part xn xd r) (c_fields c) ++ extras xn ex))).
  { rewrite map_app. apply nodup_app; [now apply parts_nodup|now apply extras_nodup|].
    intros k I J. apply extras_keys in J. apply (DE _ J). eapply parts_names. exact I. }
  destruct (c_control c); [|exact D]. destruct (get _ _) as [[| | | | | |[|]|]|]; try exact D. now apply del_nodup.
Qed.

Lemma del_default_spec d k dflt : NoDup (map fst d) ->
  match del_default d k dflt with
  | Ok d' => NoDup (map fst d') /\ (forall k', k' <> k -> get d' k' = get d k') /\
      (forall v, get d k = Some v -> num_of v <> None -> py_eq v (energy_field dflt (get d' k)) = true)
  | Err e => e = KeyError /\ get d k = None /\ dflt = VNone
  end.
Proof.
  intro N. unfold del_default. destruct (get d k) as [v|] eqn:G.
  - destruct (py_eq v dflt) eqn:P.
    + split; [now apply del_nodup|]. split.
      * intros k' D. rewrite del_get by exact N. rewrite pystr_neqb; [reflexivity|congruence].
      * intros v' [= <-] NV. rewrite del_get by exact N. rewrite pystr_eqb_refl. exact P.
    + split; [exact N|]. split; [reflexivity|]. intros v' [= <-] NV. rewrite G. assert (E : energy_field dflt (Some v) = v) by (destruct v; [cbn in NV; congruence|reflexivity..]).
      rewrite E. apply py_eq_refl. destruct v; cbn in NV; try congruence; exact I.
  - destruct (py_eq VNone dflt) eqn:P.
    + split; [reflexivity|]. split; [reflexivity|]. destruct dflt; try discriminate. reflexivity.
    + split; [exact N|]. split; [reflexivity|discriminate].
Qed.
Lemma del_default_fails d k : get d k = None -> del_default d k VNone = Err KeyError.
Proof. unfold del_default. now intros ->. Qed.

Lemma energy_back xn size production usage c v d :
  sane (format c) -> fits (format c) v ->
  energy_to_dict xn true size production usage c v = Ok d ->
  (forall k dflt w, In (k, dflt) [(str "buffer_size", size); (str "power_production", production); (str "power_usage", usage)] ->
     get (to_dict xn true c v) k = Some w -> num_of w <> None -> py_eq w (energy_field dflt (get d k)) = true) /\
  (forall k, ~ In k [str "buffer_size"; str "power_production"; str "power_usage"] -> get d k = get (to_dict xn true c v) k).
Proof.
  intros W F. unfold energy_to_dict. set (d0 := to_dict xn true c v) in *. pose proof (to_dict_nodup xn true c v W F) as N. fold d0 in N.
  pose proof (del_default_spec d0 (str "buffer_size") size N) as A.
  destruct (del_default d0 (str "buffer_size") size) as [d1|]; [|discriminate]. destruct A as (N1 & A1 & A2). cbn [bind].
  pose proof (del_default_spec d1 (str "power_production") production N1) as B.
  destruct (del_default d1 (str "power_production") production) as [d2|]; [|discriminate]. destruct B as (N2 & B1 & B2). cbn [bind].
  pose proof (del_default_spec d2 (str "power_usage") usage N2) as C. intro E. rewrite E in C. destruct C as (_ & C1 & C2).
  split.
  - intros k dflt w [Q|[Q|[Q|[]]]] G NW; injection Q as <- <-.
    + rewrite C1, B1 by discriminate. apply A2; [exact G|exact NW].
    + rewrite C1 by discriminate. apply B2; [rewrite A1 by discriminate; exact G|exact NW].
    + apply C2; [rewrite B1, A1 by discriminate; exact G|exact NW].
  - intros k NK. cbn in NK. rewrite C1, B1, A1; [reflexivity|intros ->; tauto..].
Qed.

Lemma energy_fails xn size production usage c v :
  get (to_dict xn true c v) (str "buffer_size") = None -> size = VNone ->
  energy_to_dict xn true size production usage c v = Err KeyError.
Proof. intros G ->. unfold energy_to_dict. now rewrite del_default_fails. Qed.
