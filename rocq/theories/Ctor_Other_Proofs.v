(** Proofs about constructors: other keywords, failing and succeeding. *)
From Coq Require Import ZArith String List Bool.
From Verif Require Import Common Dict Version_Model Assign_Model Attr_Model Attr_Table Attr_Spec Attr_Order_Proofs Attr_Proofs Attr_Facts_Proofs
  Ctor_Model Ctor_Table Ctor_Proofs Ctor_Plan_Proofs Ctor_Spec Ctor_Facts_Proofs Ctor_Claims_Proofs.
Import ListNotations.
Local Open Scope string_scope.
Local Open Scope list_scope.

Section Other.
Variables (W : world) (kw : dict).
Notation make c := (new tables W draftsman c kw).

(** ** Other keywords *)
Lemma last_write_hits L c f m l y : last_write L c f m l = Some y -> exists x, In x l /\ hits_field L c f x = true.
Proof.
  revert m. induction l as [|x l IH]; intros m H; cbn [last_write] in H; [discriminate|].
  destruct (last_write L c f (next_mode m x) l) as [z|] eqn:E.
  - destruct (IH (next_mode m x)) as (x' & I & X); [rewrite E; exact H|]. exists x'. split; [right; exact I|exact X].
  - destruct (hits_field L c f x) eqn:X; [|discriminate]. exists x. split; [left; reflexivity|exact X].
Qed.
Lemma field_declared L M f : mem f (field_names L M) = declared L M f.
Proof.
  unfold field_names, declared. destruct (order L M) as [m|]; [|reflexivity]. induction m as [|d m IH]; [reflexivity|]. cbn [map List.concat existsb].
  unfold mem in *. rewrite existsb_app, IH. destruct (dget eqs (l_fields L) d); reflexivity.
Qed.
Definition knownb (c : cls) (m : list cls) (k : string) : bool :=
  existsb (fun d => mem k (params_of d)) m ||
  match model_of draftsman c [] with Ok M => declared draftsman M k | Err _ => false end || mem k ["position"; "tags"; "entity_number"] ||
  match model_of draftsman c [] with
  | Ok M => match order draftsman M with Ok ms => existsb (fun r => mem (fst r) ms && eqs (snd (snd r)) k) aliases | Err _ => false end
  | Err _ => false end.
Lemma knownb_known c m k : order draftsman c = Ok m -> knownb c m k = true -> known c k.
Proof.
  unfold knownb, known. intros OR H. rewrite !orb_true_iff in H. destruct H as [[[H|H]|H]|H].
  - left. rewrite existsb_exists in H. destruct H as (d & D & P). exists m, d. split; [exact OR|]. split; [exact D|]. apply params_iff. exact P.
  - right. left. destruct (model_of draftsman c []) as [M|]; [|discriminate H]. exists M. split; [reflexivity|]. left. exact H.
  - right. right. apply mem_in. exact H.
  - right. left. destruct (model_of draftsman c []) as [M|]; [|discriminate H]. exists M. split; [reflexivity|]. right.
    destruct (order draftsman M) as [ms|]; [|discriminate H]. rewrite existsb_exists in H. destruct H as ((d & f & k') & I & X). cbn [fst snd] in X.
    apply andb_prop in X. destruct X as (X1 & X2). apply eqs_eq in X2. subst k'. apply mem_in in X1. exists ms, d, f. auto.
Qed.
Definition known_ok (c : cls) (P : plan) : bool :=
  match order draftsman c with
  | Ok m => forallb (fun kv => knownb c m (fst kv)) (pl_base P) && mem "Entity" m &&
      forallb (fun x => match act_field draftsman c x with Some (Some f) => knownb c m f | _ => true end) (pl_acts P)
  | Err _ => false
  end.
Lemma knowns : each known_ok = true.
Proof. vm_cast_no_check (eq_refl true). Qed.
Theorem extra_field c k o : prototype c -> make c = Ok o -> ~ known c k ->
  exists fs, o_root o = TModel fs /\ dget eqs fs k = dget eqs kw k.
Proof.
  intros C H N. destruct (made_field W kw c o k C H) as (P & M & fs & PL & CM & MO & RT & X). exists fs. split; [exact RT|].
  destruct (each_in _ c knowns C) as (P' & PL' & KO). rewrite PL in PL'. injection PL' as <-. unfold known_ok in KO.
  destruct (order draftsman c) as [m|] eqn:OR; [|discriminate KO]. rewrite !andb_true_iff in KO. destruct KO as ((K1 & KE) & K2).
  assert (NK : knownb c m k = false) by (destruct (knownb c m k) eqn:E; [destruct (N (knownb_known c m k OR E))|reflexivity]).
  assert (SL : slook (pl_base P) k = PUser).
  { unfold slook. destruct (dget eqs (pl_base P) k) as [p|] eqn:G; [|reflexivity]. apply (dget_some_in _ eqs_eq) in G.
    rewrite forallb_forall in K1. specialize (K1 _ G). cbn [fst] in K1. congruence. }
  assert (LW : last_write draftsman c k None (pl_acts P) = None).
  { destruct (last_write draftsman c k None (pl_acts P)) as [y|] eqn:G; [|reflexivity]. apply last_write_hits in G. destruct G as (x & I & Hx).
    rewrite forallb_forall in K2. specialize (K2 x I). unfold hits_field in Hx. destruct (act_field draftsman c x) as [[g|]|]; try discriminate Hx.
    apply eqs_eq in Hx. subst g. congruence. }
  rewrite LW in X.
  assert (PR : mem k ["name"; "quality"; "position"; "entity_number"] = false).
  { destruct (mem k ["name"; "quality"; "position"; "entity_number"]) eqn:E; [|reflexivity]. exfalso. apply N. apply mem_in in E, KE.
    destruct E as [<-|[<-|[<-|[<-|[]]]]].
    - left. exists m, "Entity". split; [exact OR|]. split; [exact KE|]. left. reflexivity.
    - left. exists m, "Entity". split; [exact OR|]. split; [exact KE|]. right. right. left. reflexivity.
    - right. right. left. reflexivity.
    - right. right. right. right. left. reflexivity. }
  unfold knownb in NK. rewrite !orb_false_iff in NK. destruct NK as (((_ & NK1) & _) & NK2). rewrite MO in NK1, NK2.
  rewrite field_declared, NK1 in X.
  assert (CL : claimed tables draftsman M k = false).
  { unfold claimed. rewrite field_declared, NK1. cbn [orb].
    match goal with |- ?e = false => destruct e eqn:E end; [|reflexivity]. exfalso. rewrite existsb_exists in E. destruct E as (f & _ & E).
    unfold alias in E. destruct (order draftsman M) as [ms|]; [|discriminate E].
    destruct (first_some (own_alias tables f) ms) as [a|] eqn:FS; [|discriminate E]. apply eqs_eq in E. subst a.
    apply first_some_split in FS. destruct FS as (l1 & d & l2 & -> & OA & _). unfold own_alias in OA. apply first_some_split in OA.
    destruct OA as (r1 & (d' & f' & k') & r2 & TA & OA & _). cbn [fst snd] in OA.
    destruct (eqs d' d && eqs f' f) eqn:DD; [|discriminate OA]. injection OA as ->. apply andb_prop in DD. destruct DD as (DD & _). apply eqs_eq in DD. subst d'.
    cbn [tables d_aliases] in TA. assert (IN : In (d, (f', k)) aliases) by (rewrite TA; apply in_elt).
    assert (Y : existsb (fun r => mem (fst r) (l1 ++ d :: l2) && eqs (snd (snd r)) k) aliases = true).
    { apply existsb_exists. exists (d, (f', k)). split; [exact IN|]. cbn [fst snd]. rewrite eqs_refl, andb_true_r. apply mem_in. apply in_elt. }
    congruence. }
  rewrite CL in X. rewrite (base_user W kw c P k SL PR) in X. exact X.
Qed.

(** ** Failing and succeeding *)
Theorem similar_refused c v : prototype c -> dget eqs kw "similar_entities" = Some v -> make c = Err TypeError.
Proof. intros C G. apply make_refused; [exact C|]. unfold given. rewrite G. reflexivity. Qed.
Theorem nameless_refused c : prototype c -> dget eqs kw "similar_entities" = None -> supplied W c kw "name" TNone -> make c = Err DataFormatError.
Proof.
  intros C G S. destruct (make_steps W kw c C (proj2 (ungiven kw) G)) as (P & M & d & _ & _ & _ & _ & _ & ->).
  assert (N : name_of W kw c = TNone) by exact (supplied_sval W kw c "name" TNone TNone S). rewrite N. reflexivity.
Qed.
Definition act_total (c : cls) (x : act) : bool :=
  match x with
  | AAttr a _ => match top draftsman c a, find_prop draftsman c a with
                 | Some _, Some q => match guard (p_set q) with Some (m, _) => match model_of draftsman c m with Ok _ => true | Err _ => false end | None => true end
                 | _, _ => false
                 end
  | _ => true
  end.
Lemma checked_total c md strict m target n p v fs f M : lenient W -> checks_cell draftsman c target n ([], f) -> names_cell draftsman c p ([], f) ->
  model_of draftsman c m = Ok M -> exists fs', checked draftsman (verify W) md strict c m target n p v (TModel fs) = (TModel fs', None).
Proof.
  intros (_ & LV & _) (CK & E) N MO. cbn [fst snd map] in CK, E. subst n. unfold checked, attempt. rewrite MO, CK. cbn [bind read].
  assert (exists w, (if declared draftsman M f then verify W md strict M f (TModel fs) v else Ok v) = Ok w) as (w & ->).
  { destruct (declared draftsman M f); [apply LV|exists v; reflexivity]. }
  cbn [bind update store replace]. destruct (put_cell draftsman c p ([], f) w (TModel (dset eqs fs f w)) N) as (s & S1 & _ & ->). cbn [fst snd] in *.
  rewrite (write_top _ f s w S1). cbn [done]. eexists. reflexivity.
Qed.
Lemma assign_total c a md fs v : lenient W -> act_total c (AAttr a (VConst DNone)) = true ->
  exists fs', assign draftsman (verify W) c md (TModel fs) a v = (TModel fs', None).
Proof.
  intros LW H. cbn [act_total] in H. unfold top in H. destruct (find_prop draftsman c a) as [q|] eqn:F; [|discriminate H].
  destruct (setter_cell draftsman c (p_set q)) as [([|] & f)|] eqn:S; try discriminate H. apply setter_cell_keeps in S.
  unfold assign. rewrite F. 
  assert (PUT : forall p fs, names_cell draftsman c p ([], f) -> put draftsman c p v (TModel fs) = Ok (TModel (dset eqs fs f v))).
  { intros p fs0 N. destruct (put_cell draftsman c p ([], f) v (TModel fs0) N) as (s & S1 & _ & ->). cbn [fst snd] in *. apply write_top. exact S1. }
  destruct (p_set q) as [e m t n p1 p2|m t n|p|m t n p|]; cbn [guard keeps] in *.
  - destruct S as (K1 & K2 & K3 & K4). destruct (model_of draftsman c m) as [M|] eqn:MO; [|discriminate H].
    assert (GO : forall fs, exists fs', (if mode_bool md then checked draftsman (verify W) md false c m t n p1 v (TModel fs) else done (TModel fs) (put draftsman c p2 v (TModel fs))) = (TModel fs', None)).
    { intros fs0. destruct (mode_bool md); [exact (checked_total c md false m t n p1 v fs0 f M LW K1 K2 MO)|]. rewrite (PUT p2 fs0 K3). eexists. reflexivity. }
    destruct e as [|p|p].
    + cbn [then_]. apply GO.
    + rewrite (PUT p fs K4). cbn [done then_]. apply GO.
    + destruct (mode_bool md) eqn:MB.
      * rewrite (PUT p fs K4). cbn [done then_]. apply GO.
      * cbn [then_]. apply GO.
  - destruct (model_of draftsman c m) as [M|] eqn:MO; [|discriminate H].
    exact (checked_total c md true m t n _ v fs f M LW S (item_cell draftsman c t n _ S) MO).
  - rewrite (PUT p fs S). eexists. reflexivity.
  - destruct S as (K1 & K2). destruct (model_of draftsman c m) as [M|] eqn:MO; [|discriminate H]. exact (checked_total c md false m t n p v fs f M LW K1 K2 MO).
  - destruct S.
Qed.
Lemma acts_total c n l o fs : lenient W -> forallb (act_total c) l = true -> o_root o = TModel fs -> exists o', do_acts W draftsman c kw n o l = Ok o'.
Proof.
  intros LW. revert o fs. induction l as [|x l IH]; intros o fs A R; cbn [do_acts forallb] in *; [exists o; reflexivity|].
  apply andb_prop in A. destruct A as (A1 & A2).
  assert (exists o1 fs1, do_act W draftsman c kw n o x = Ok o1 /\ o_root o1 = TModel fs1) as (o1 & fs1 & -> & R1); [|exact (IH o1 fs1 A2 R1)].
  destruct x as [a v|a v|a v|f v|p t|v]; cbn [do_act].
  - rewrite R. destruct (assign_total c a (o_mode o) fs (sval W kw n v) LW A1) as (fs' & ->). eexists. eexists. split; reflexivity.
  - assert (exists w, adapt W a (sval W kw n v) = Ok w) as (w & ->).
    { unfold adapt. destruct (eqs a "items"); [eexists; reflexivity|]. destruct (eqs a "orientation"); [apply LW|eexists; reflexivity]. }
    cbn [bind]. rewrite R. eexists. eexists. split; reflexivity.
  - eexists. exists fs. split; [reflexivity|exact R].
  - rewrite R. eexists. eexists. split; reflexivity.
  - eexists. exists fs. split; [reflexivity|exact R].
  - destruct LW as (_ & _ & _ & LM). destruct (LM (sval W kw n v)) as (m & ->). eexists. exists fs. split; [reflexivity|exact R].
Qed.
Lemma totals : each (fun c P => forallb (act_total c) (pl_acts P)) = true.
Proof. vm_cast_no_check (eq_refl true). Qed.
Theorem made c v : lenient W -> prototype c -> dget eqs kw "similar_entities" = None -> supplied W c kw "name" v -> v <> TNone -> exists o, make c = Ok o.
Proof.
  intros LW C G S NN. destruct (make_steps W kw c C (proj2 (ungiven kw) G)) as (P & M & d & PL & CM & MO & D1 & D2 & ->).
  assert (N : name_of W kw c = v) by exact (supplied_sval W kw c "name" v TNone S). rewrite N.
  replace (is_none v) with false by (destruct v; [contradiction| | |]; reflexivity).
  assert (exists fs, build tables W draftsman M d = Ok (TModel fs)) as (fs & ->).
  { unfold build. assert (B : forall l, exists r, map_result (field_value tables W draftsman M d) l = Ok r).
    { induction l as [|f l (r & IH)]; cbn [map_result]; [eexists; reflexivity|]. unfold field_value at 1.
      assert (exists w, match value_for tables draftsman M d f with Some v => convert W M f v | None => Ok (fresh W M f) end = Ok w) as (w & ->).
      { destruct (value_for tables draftsman M d f) as [u|]; [apply LW|eexists; reflexivity]. }
      cbn [bind]. rewrite IH. eexists. reflexivity. }
    destruct (B (field_names draftsman M)) as (r & ->). eexists. reflexivity. }
  cbn [bind]. destruct (each_in _ c totals C) as (P' & PL' & TO). rewrite PL in PL'. injection PL' as <-.
  exact (acts_total c v (pl_acts P) (start (TModel fs)) fs LW TO eq_refl).
Qed.
Lemma no_entity T L c ch kw' : ~ In "Entity" ch -> exists e, construct T W L c ch kw' = Err e.
Proof.
  revert kw'. induction ch as [|d ch IH]; intros kw' N; cbn [construct]; [eexists; reflexivity|].
  destruct (eqs d "Entity") eqn:E; [apply eqs_eq in E; subst d; destruct N; left; reflexivity|].
  assert (N' : ~ In "Entity" ch) by (intros I; apply N; right; exact I).
  destruct (dget eqs (d_inits T) d) as [i|]; [|exact (IH kw' N')].
  destruct (bind_params W d (i_params i) kw') as [env|e]; cbn [bind]; [|eexists; reflexivity].
  destruct (args W env (without (map fst (i_params i)) kw') (i_call i)) as [kw2|e]; cbn [bind]; [|eexists; reflexivity].
  destruct (IH kw2 N') as (e & ->). eexists. reflexivity.
Qed.
Theorem baseless_never c : In c baseless -> exists e, make c = Err e.
Proof.
  intros I. unfold new, chain. apply mem_in in I. cbn [tables d_baseless]. rewrite I. cbn [bind]. apply no_entity.
  apply mem_in in I. cbn [baseless In] in I. cbn [In]. intros [E|[E|[]]]; [|discriminate E].
  subst c. repeat destruct I as [I|I]; try discriminate I. exact I.
Qed.
(** The targets of spidertrons. *)
Theorem spider_refused a v o : In a ["auto_target_without_gunner"; "auto_target_with_gunner"] -> make "SpiderVehicle" = Ok o ->
  supplied W "SpiderVehicle" kw "automatic_targeting_parameters" v -> (forall fs, v <> TModel fs) -> get draftsman "SpiderVehicle" a (o_root o) = Err AttributeError.
Proof.
  intros I H S NM.
  assert (E : forallb (fun a => match find_prop draftsman "SpiderVehicle" a with Some q => match where_ draftsman "SpiderVehicle" (p_get q) with
        | Ok [SAttr f; SAttr _] => eqs f "automatic_targeting_parameters" | _ => false end | None => false end) ["auto_target_without_gunner"; "auto_target_with_gunner"] &&
      mem "SpiderVehicle" protos && match find_prop draftsman "SpiderVehicle" "automatic_targeting_parameters" with
        | Some q => same_cell (setter_cell draftsman "SpiderVehicle" (p_set q)) ([], "automatic_targeting_parameters") | None => false end = true)
    by (vm_cast_no_check (eq_refl true)).
  rewrite !andb_true_iff in E. destruct E as ((E1 & E2) & E3). apply mem_in in E2. assert (C : prototype "SpiderVehicle") by (apply protos_in; exact E2).
  assert (WR : writes draftsman "SpiderVehicle" "automatic_targeting_parameters" ([], "automatic_targeting_parameters")).
  { destruct (find_prop draftsman "SpiderVehicle" "automatic_targeting_parameters") as [q|] eqn:F; [|discriminate E3]. exists q. split; [exact F|].
    apply setter_cell_keeps. apply same_cell_eq. exact E3. }
  destruct (kept_field W kw "SpiderVehicle" "automatic_targeting_parameters" v v o C) as (f & WR' & fs & R & G); try assumption.
  - exists "automatic_targeting_parameters". exact WR.
  - intros O. apply once_iff in O. discriminate O.
  - intros O. apply strict_iff in O. discriminate O.
  - intros O. apply odd_iff in O. discriminate O.
  - apply filled_not. right. intros O. apply emptied_iff in O. discriminate O.
  - destruct WR as (q & F & K). destruct WR' as (q' & F' & K'). rewrite F in F'. injection F' as <-. pose proof (keeps_unique _ _ _ _ _ K K') as KE. injection KE as <-.
    rewrite forallb_forall in E1. specialize (E1 a I). cbv beta in E1. unfold get. rewrite R. change String.eqb with eqs in G.
    destruct (find_prop draftsman "SpiderVehicle" a) as [qa|]; [|discriminate E1].
    destruct (where_ draftsman "SpiderVehicle" (p_get qa)) as [ss|]; [|discriminate E1]. destruct ss as [|[k|k|k] ss]; try discriminate E1.
    destruct ss as [|[j|j|j] ss]; try discriminate E1. destruct ss; [|discriminate E1]. apply eqs_eq in E1. subst k.
    cbn [bind read child]. rewrite G. cbn [bind]. destruct v as [| |l|]; try reflexivity. destruct (NM l eq_refl).
Qed.
Theorem quality_reads_recipe c o v : In c ["AssemblingMachine"; "RocketSilo"] -> make c = Ok o -> supplied W c kw "recipe" v ->
  get draftsman c "recipe_quality" (o_root o) = Ok v.
Proof.
  intros I H S.
  assert (E : forallb (fun c => mem c protos && match find_prop draftsman c "recipe_quality", find_prop draftsman c "recipe" with
        | Some q, Some r => reads_field c "recipe" q && same_cell (setter_cell draftsman c (p_set r)) ([], "recipe") | _, _ => false end) ["AssemblingMachine"; "RocketSilo"] = true)
    by (vm_cast_no_check (eq_refl true)).
  rewrite forallb_forall in E. specialize (E c I). cbv beta in E. apply andb_prop in E. destruct E as (E2 & E). apply mem_in in E2.
  assert (C : prototype c) by (apply protos_in; exact E2).
  destruct (find_prop draftsman c "recipe_quality") as [q|] eqn:F; [|discriminate E]. destruct (find_prop draftsman c "recipe") as [r|] eqn:Fr; [|discriminate E].
  apply andb_prop in E. destruct E as (E1 & E3). apply same_cell_eq in E3. apply setter_cell_keeps in E3.
  destruct (kept_field W kw c "recipe" v v o C) as (f & WR' & fs & R & G); try assumption.
  - exists "recipe", r. auto.
  - intros O. apply once_iff in O. destruct I as [<-|[<-|[]]]; discriminate O.
  - intros O. apply strict_iff in O. discriminate O.
  - intros O. apply odd_iff in O. destruct I as [<-|[<-|[]]]; discriminate O.
  - apply filled_not. right. intros O. apply emptied_iff in O. destruct I as [<-|[<-|[]]]; discriminate O.
  - destruct WR' as (r' & F' & K'). rewrite Fr in F'. injection F' as <-. pose proof (keeps_unique _ _ _ _ _ E3 K') as KE. injection KE as <-.
    rewrite R. exact (get_field c _ q "recipe" fs v F E1 G).
Qed.

(** ** The object around the model *)
Theorem made_around c o m p t i : prototype c -> make c = Ok o -> supplied W c kw "validate_assignment" m -> supplied W c kw "position" p ->
  supplied W c kw "tile_position" t -> supplied W c kw "id" i ->
  to_mode W m = Ok (o_mode o) /\ (p <> TNone -> o_place o = (true, p)) /\ (p = TNone -> o_place o = (false, t)) /\
  dget String.eqb (o_own o) "id" = Some i /\ dget String.eqb (o_own o) "similar_entities" = Some (constant W DNames).
Proof.
  intros C H S1 S2 S3 S4. destruct (made_rest W kw c o C H) as (X1 & X2 & X3 & X4).
  rewrite (supplied_sval W kw c _ _ _ S1) in X1. rewrite (supplied_sval W kw c _ _ _ S2), (supplied_sval W kw c _ _ _ S3) in X2.
  rewrite (supplied_sval W kw c _ _ _ S4) in X3. split; [exact X1|]. rewrite X2. unfold place_of.
  split; [intros N; destruct p; [contradiction| | |]; reflexivity|]. split; [intros ->; reflexivity|]. split; [exact X3|exact X4].
Qed.
Theorem made_then c a v w o p check : prototype c -> outer c a -> ~ once c a -> ~ strictly c a -> ~ odd c a -> ~ In (c, a) misread ->
  make c = Ok o -> supplied W c kw (keyword a) v -> filled W c a v w -> proper c a p -> quiet draftsman check c a (o_mode o, o_root o) p ->
  get draftsman c a (snd (run draftsman check c (o_mode o, o_root o) p)) = Ok w.
Proof.
  intros C O N1 N2 N3 N4 H S F PR Q. rewrite (history_quiet check c a p (o_mode o, o_root o)); [|exact (proj1 C)| |exact PR|exact Q].
  - exact (kept_get W kw c a v w o C O N1 N2 N3 N4 H S F).
  - destruct O as (f & q & F1 & _). exists q. exact F1.
Qed.
End Other.
