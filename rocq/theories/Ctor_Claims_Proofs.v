(** Proofs about constructed entities. *)
From Coq Require Import ZArith String List Bool.
From Verif Require Import Common Dict Version_Model Assign_Model Attr_Model Attr_Table Attr_Spec Attr_Order_Proofs Attr_Proofs Attr_Facts_Proofs
  Ctor_Model Ctor_Table Ctor_Proofs Ctor_Plan_Proofs Ctor_Spec Ctor_Facts_Proofs.
Import ListNotations.
Local Open Scope string_scope.
Local Open Scope list_scope.

Section Claims.
Variables (W : world) (kw : dict).
Notation make c := (new tables W draftsman c kw).

Lemma row_in c a q : prototype c -> find_prop draftsman c a = Some q ->
  exists P M, plan_c c = Some P /\ model_of draftsman c [] = Ok M /\ row_ok c P M a q = true.
Proof.
  intros C F. destruct (each_in _ c all_rows_ok C) as (P & PL & R). unfold rows_ok in R. exists P.
  destruct (model_of draftsman c []) as [M|]; [|discriminate]. exists M. split; [exact PL|]. split; [reflexivity|].
  rewrite forallb_forall in R. exact (R (a, q) (proj2 (rows_in _ _ _ _) F)).
Qed.
Lemma outer_fields c a : prototype c -> outer c a -> exists q f, find_prop draftsman c a = Some q /\ outer_field c q = Some f /\ writes draftsman c a ([], f).
Proof.
  intros (C & _) (f & Wr). pose proof Wr as (q & F & _). exists q, f. split; [exact F|]. split; [|exact Wr].
  unfold outer_field. rewrite (writes_cell c a q ([], f) F Wr C). reflexivity.
Qed.
Lemma get_field c a q f fs w : find_prop draftsman c a = Some q -> reads_field c f q = true -> dget eqs fs f = Some w ->
  get draftsman c a (TModel fs) = Ok w.
Proof.
  intros F R G. unfold get, reads_field in *. rewrite F. destruct (where_ draftsman c (p_get q)) as [[|s [|]]|]; try discriminate.
  apply eqs_eq in R. subst f. cbn [bind read]. destruct s as [k|k|k]; cbn [child skey] in *; rewrite G; reflexivity.
Qed.
Lemma top_outer c a q f : find_prop draftsman c a = Some q -> outer_field c q = Some f -> top draftsman c a = Some f.
Proof. intros F H. unfold top. rewrite F. exact H. Qed.
Lemma supplied_sval c k v n : supplied W c kw k v -> sval W kw n (svk c k) = v.
Proof. apply svk_supplied. Qed.

(** The setter's field. *)
Theorem kept_field c a v w o : prototype c -> outer c a -> ~ once c a -> ~ strictly c a -> ~ odd c a ->
  make c = Ok o -> supplied W c kw (keyword a) v -> filled W c a v w -> exists f, writes draftsman c a ([], f) /\ holds o f w.
Proof.
  intros C O N1 N2 N3 H S Fl. destruct (outer_fields c a C O) as (q & f & F & OF & Wr). destruct (row_in c a q C F) as (P & M & PL & MO & R).
  unfold row_ok in R. rewrite OF in R. destruct (is_odd c a) eqn:E3; [apply odd_iff in E3; contradiction|]. apply andb_prop in R. destruct R as (_ & R).
  destruct (is_once c a) eqn:E1; [apply once_iff in E1; contradiction|].
  destruct (made_field W kw c o f C H) as (P' & M' & fs & PL' & CM & MO' & RT & X). rewrite PL in PL'. injection PL' as <-.
  exists f. split; [exact Wr|]. exists fs. split; [exact RT|]. change String.eqb with eqs.
  assert (V : forall sv0, svb sv0 (fill c a (svk c (keyword a))) = true -> sval W kw (name_of W kw c) sv0 = w).
  { intros sv0 E. apply svb_eq in E. subst sv0. apply fill_filled. rewrite (supplied_sval c _ v _ S). exact Fl. }
  destruct (last_write draftsman c f None (pl_acts P)) as [(m & x)|]; [|discriminate]. destruct m; [discriminate|].
  destruct X as (md & u & X1 & X2 & X3). cbn [in_mode] in X1. subst md.
  destruct x as [b sv0|b sv0|b sv0|g sv0|p t|sv0]; try discriminate; cbn [lands] in X2.
  - apply andb_prop in R. destruct R as (R & R3). apply andb_prop in R. destruct R as (R1 & R2). apply eqs_eq in R1. subst b.
    destruct (is_strict c a) eqn:E2; [apply strict_iff in E2; contradiction|]. destruct X2 as (X2 & _). rewrite X3, (X2 eq_refl R3), (V _ R2). reflexivity.
  - apply andb_prop in R. destruct R as (_ & R2). rewrite X3, X2, (V _ R2). reflexivity.
Qed.
Theorem kept_get c a v w o : prototype c -> outer c a -> ~ once c a -> ~ strictly c a -> ~ odd c a -> ~ In (c, a) misread ->
  make c = Ok o -> supplied W c kw (keyword a) v -> filled W c a v w -> get draftsman c a (o_root o) = Ok w.
Proof.
  intros C O N1 N2 N3 N4 H S Fl. destruct (kept_field c a v w o C O N1 N2 N3 H S Fl) as (f & Wr & fs & RT & G).
  destruct (outer_fields c a C O) as (q & f' & F & OF & Wr').
  assert (f' = f) as ->.
  { pose proof (writes_cell c a q ([], f) F Wr (proj1 C)) as A. pose proof (writes_cell c a q ([], f') F Wr' (proj1 C)) as B. congruence. }
  destruct (row_in c a q C F) as (P & M & PL & MO & R). unfold row_ok in R. rewrite OF in R.
  destruct (is_odd c a) eqn:E3; [apply odd_iff in E3; contradiction|]. apply andb_prop in R. destruct R as (R & _).
  destruct (inb c a misread) eqn:E4; [apply inb_in in E4; contradiction|]. cbn [orb] in R. rewrite RT. exact (get_field c a q f fs w F R G).
Qed.
Lemma strict_not_once c a : is_strict c a = true -> is_once c a = false.
Proof.
  intros E. apply strict_iff in E. destruct (is_once c a) eqn:O; [|reflexivity]. apply once_iff in O. exfalso. unfold strictly, once in *.
  destruct E as (E & NL). destruct O as [O|O]; [|contradiction]. cbn [In] in *. intuition (subst; discriminate).
Qed.
Lemma strict_not_odd c a : is_strict c a = true -> is_odd c a = false.
Proof.
  intros E. apply strict_iff in E. destruct (is_odd c a) eqn:O; [|reflexivity]. apply odd_iff in O. exfalso. unfold strictly, odd in *.
  destruct E as (E & NL). cbn [In] in *. repeat destruct O as [O|O]; try (injection O as <- <-); try contradiction; intuition discriminate.
Qed.
Theorem strict_get c a v o : prototype c -> outer c a -> strictly c a -> make c = Ok o -> supplied W c kw (keyword a) v ->
  exists w, takes draftsman (verify W) c MNone a v w /\ get draftsman c a (o_root o) = Ok w /\ exists f, writes draftsman c a ([], f) /\ holds o f w.
Proof.
  intros C O N2 H S. destruct (outer_fields c a C O) as (q & f & F & OF & Wr). destruct (row_in c a q C F) as (P & M & PL & MO & R).
  apply strict_iff in N2. unfold row_ok in R. rewrite OF, (strict_not_odd c a N2) in R. apply andb_prop in R. destruct R as (RG & R).
  rewrite (strict_not_once c a N2) in R. rewrite N2 in R.
  destruct (made_field W kw c o f C H) as (P' & M' & fs & PL' & CM & MO' & RT & X). rewrite PL in PL'. injection PL' as <-.
  destruct (last_write draftsman c f None (pl_acts P)) as [(m & x)|]; [|discriminate]. destruct m; [discriminate|].
  destruct X as (md & u & X1 & X2 & X3). cbn [in_mode] in X1. subst md.
  destruct x as [b sv0|b sv0|b sv0|g sv0|p t|sv0]; try discriminate; cbn [lands] in X2.
  apply andb_prop in R. destruct R as (R & R3). apply andb_prop in R. destruct R as (R1 & R2). apply eqs_eq in R1. subst b.
  apply andb_prop in R3. destruct R3 as (R3 & R5). apply andb_prop in R3. destruct R3 as (R3 & R4). apply negb_true_iff in R3, R5.
  apply svb_eq in R2. unfold fill in R2. rewrite R5 in R2. subst sv0. rewrite (supplied_sval c _ v _ S) in X2.
  destruct X2 as (_ & X2). rewrite F in X2. destruct (guard (p_set q)) as [(m & n)|] eqn:Gd; [|discriminate].
  destruct (X2 (or_intror R3)) as (q' & m' & n' & M0 & F' & Gd' & MO0 & D); [discriminate|]. rewrite F in F'. injection F' as <-. rewrite Gd in Gd'.
  injection Gd' as <- <-. exists u. split.
  - exists q. split; [exact F|]. rewrite Gd. right. exists M0. auto.
  - assert (inb c a misread = false) as E4.
    { destruct (inb c a misread) eqn:E4; [|reflexivity]. apply inb_in in E4. apply strict_iff in N2. destruct N2 as (N2 & _). cbn [misread In] in *.
      destruct E4 as [E4|[E4|[]]]; injection E4 as <- <-; intuition discriminate. }
    rewrite E4 in RG. cbn [orb] in RG. split; [rewrite RT; exact (get_field c a q f fs u F RG X3)|]. exists f. split; [exact Wr|]. exists fs. split; [exact RT|exact X3].
Qed.
Lemma through c a b f rest o w : writes draftsman c b ([], f) -> touches draftsman c b a rest -> holds o f w -> get draftsman c a (o_root o) = read w rest.
Proof.
  intros (q & F & K) (k & way & s & (q' & F' & K') & (qa & Fa & RD) & E1 & E2) (fs & R & G). rewrite F in F'. injection F' as <-.
  pose proof (keeps_unique _ _ _ _ _ K K') as <-. cbn [fst snd] in *. destruct way; [|discriminate E1]. cbn [app] in RD.
  unfold get. rewrite Fa, RD, R. cbn [bind read]. change String.eqb with eqs in G.
  destruct s as [k|k|k]; cbn [child skey] in *; subst k; rewrite G; reflexivity.
Qed.
Theorem kept_inner c a b rest v w o : prototype c -> outer c b -> ~ once c b -> ~ strictly c b -> ~ odd c b -> touches draftsman c b a rest ->
  make c = Ok o -> supplied W c kw (keyword b) v -> filled W c b v w -> get draftsman c a (o_root o) = read w rest.
Proof.
  intros C O N1 N2 N3 T H S F. destruct (kept_field c b v w o C O N1 N2 N3 H S F) as (f & Wr & Hd). exact (through c a b f rest o w Wr T Hd).
Qed.
Theorem strict_inner c a b rest v o : prototype c -> outer c b -> strictly c b -> touches draftsman c b a rest -> make c = Ok o -> supplied W c kw (keyword b) v ->
  exists w, takes draftsman (verify W) c MNone b v w /\ get draftsman c a (o_root o) = read w rest.
Proof.
  intros C O N T H S. destruct (strict_get c b v o C O N H S) as (w & TK & _ & f & Wr & Hd). exists w. split; [exact TK|exact (through c a b f rest o w Wr T Hd)].
Qed.
Lemma base_user c P k : slook (pl_base P) k = PUser -> mem k ["name"; "quality"; "position"; "entity_number"] = false -> base_value W kw c P k = dget eqs kw k.
Proof.
  intros S N. unfold base_value, base_get. rewrite S. cbn [pv]. cbn [mem existsb] in N.
  apply orb_false_iff in N. destruct N as (N1 & N). apply orb_false_iff in N. destruct N as (N2 & N). apply orb_false_iff in N. destruct N as (N3 & N). apply orb_false_iff in N. destruct N as (N4 & _).
  rewrite N3. cbn [andb]. destruct (dget eqs kw k); [reflexivity|]. cbn [dget]. unfold eqs in *.
  rewrite (String.eqb_sym "name" k), (String.eqb_sym "quality" k), (String.eqb_sym "position" k), (String.eqb_sym "entity_number" k), N1, N2, N3, N4. reflexivity.
Qed.
Lemma base_sure c P k v : slook (pl_base P) k = PSure v -> mem k ["name"; "quality"; "position"; "entity_number"] = false ->
  base_value W kw c P k = Some (sval W kw (name_of W kw c) v).
Proof.
  intros S N. unfold base_value, base_get. rewrite S. cbn [pv]. cbn [mem existsb] in N.
  apply orb_false_iff in N. destruct N as (N1 & N). apply orb_false_iff in N. destruct N as (N2 & N). apply orb_false_iff in N. destruct N as (N3 & N).
  rewrite N3. reflexivity.
Qed.
Theorem once_field c a x o : prototype c -> outer c a -> once c a -> make c = Ok o -> entered W c kw a x ->
  exists M w, model_of draftsman c [] = Ok M /\ (exists q, find_prop draftsman c a = Some q /\ reads_field c (keyword a) q = true) /\ holds o (keyword a) w /\
    match x with Some v => convert W M (keyword a) v = Ok w | None => w = fresh W M (keyword a) end.
Proof.
  intros C O N1 H E. destruct (outer_fields c a C O) as (q & f & F & OF & Wr). destruct (row_in c a q C F) as (P & M & PL & MO & R).
  apply once_iff in N1. unfold row_ok in R. rewrite OF in R.
  assert (is_odd c a = false) as E3.
  { destruct (is_odd c a) eqn:E3; [|reflexivity]. apply odd_iff in E3. apply once_iff in N1. unfold once, odd in *. exfalso. cbn [In] in *.
    repeat destruct E3 as [E3|E3]; try (injection E3 as <- <-); try contradiction; intuition discriminate. }
  rewrite E3, N1 in R. apply andb_prop in R. destruct R as (RG & R). rewrite !andb_true_iff in R.
  destruct R as ((((((R1 & R2) & R3) & R4) & R5) & R6) & R7). apply eqs_eq in R1. subst f.
  assert (inb c a misread = false) as E4.
  { destruct (inb c a misread) eqn:E4; [|reflexivity]. apply inb_in in E4. apply once_iff in N1. unfold once in N1. cbn [misread In] in *.
    destruct E4 as [E4|[E4|[]]]; injection E4 as <- <-; intuition discriminate. }
  rewrite E4 in RG. cbn [orb] in RG. apply negb_true_iff in R4.
  destruct (made_field W kw c o (keyword a) C H) as (P' & M' & fs & PL' & CM & MO' & RT & X). rewrite PL in PL'. injection PL' as <-.
  rewrite MO in MO'. injection MO' as <-. exists M. destruct (last_write draftsman c (keyword a) None (pl_acts P)); [discriminate|]. rewrite R2 in X.
  destruct X as (w & X1 & X2). exists w. split; [exact MO|]. split; [exists q; auto|]. split; [exists fs; auto|].
  unfold presb in R5. destruct (pres_dec (slook (pl_base P) (keyword a)) _) as [SL|]; [|discriminate].
  (* the keyword itself *)
  assert (OWN : forall y, (forall k, other_key a = Some k -> dget eqs kw k = None) -> entered W c kw a y -> base_value W kw c P (keyword a) = y).
  { intros y NK [k v K G|v u _ D S Fl|_ D NP].
    - specialize (NK k K). change String.eqb with eqs in G. congruence.
    - destruct (mem (keyword a) (params_of c)) eqn:PM.
      + rewrite (base_sure c P _ _ SL R4). f_equal. apply fill_filled. rewrite (supplied_sval c _ v _ S). exact Fl.
      + rewrite (base_user c P _ SL R4). change String.eqb with eqs in *. destruct D as [D|D]; [|apply params_iff in D; congruence].
        cbn [orb] in R6. apply andb_prop in R6. destruct R6 as (R6 & _). apply negb_true_iff in R6.
        destruct Fl as [_|_ Em]; [|apply emptied_iff in Em; congruence]. destruct S as [v' G|G _|G _ _|G _ _]; change String.eqb with eqs in G; congruence.
    - destruct (mem (keyword a) (params_of c)) eqn:PM; [apply params_iff in PM; contradiction|]. rewrite (base_user c P _ SL R4). exact D. }
  destruct (alias tables draftsman M (keyword a)) as [k|], (other_key a) as [j|] eqn:OK; try discriminate.
  - rewrite !andb_true_iff in R7. destruct R7 as ((R7 & R8) & R9). apply eqs_eq in R7. subst j. apply negb_true_iff in R9.
    unfold presb in R8. destruct (pres_dec (slook (pl_base P) k) PUser) as [SK|]; [|discriminate]. rewrite (base_user c P k SK R9) in X2.
    destruct (dget eqs kw k) as [v|] eqn:G.
    + destruct E as [k' v' K' G'|v' u NK|NK]; change String.eqb with eqs in *; try rewrite OK in *.
      * injection K' as <-. rewrite G in G'. injection G' as <-. exact X2.
      * rewrite (NK k eq_refl) in G. discriminate.
      * rewrite (NK k eq_refl) in G. discriminate.
    + rewrite (OWN x) in X2; [exact X2| |exact E]. intros k' K. injection K as <-. exact G.
  - rewrite (OWN x) in X2; [exact X2|discriminate|exact E].
Qed.
Theorem once_get c a x o : prototype c -> outer c a -> once c a -> make c = Ok o -> entered W c kw a x ->
  exists M w, model_of draftsman c [] = Ok M /\ get draftsman c a (o_root o) = Ok w /\
    match x with Some v => convert W M (keyword a) v = Ok w | None => w = fresh W M (keyword a) end.
Proof.
  intros C O N H E. destruct (once_field c a x o C O N H E) as (M & w & MO & (q & F & RF) & (fs & R & G) & X). exists M, w. split; [exact MO|].
  split; [rewrite R; exact (get_field c a q _ fs w F RF G)|exact X].
Qed.
(** Attributes inside of such a field. *)
Theorem once_inner c a b x s rest o : prototype c -> outer c b -> once c b -> make c = Ok o -> entered W c kw b x ->
  reads draftsman c a (s :: rest) -> skey s = keyword b ->
  exists M w, model_of draftsman c [] = Ok M /\ get draftsman c a (o_root o) = read w rest /\
    match x with Some v => convert W M (keyword b) v = Ok w | None => w = fresh W M (keyword b) end.
Proof.
  intros C O N H E (q & F & RD) K. destruct (once_field c b x o C O N H E) as (M & w & MO & _ & (fs & R & G) & X). exists M, w. split; [exact MO|].
  split; [|exact X]. unfold get. rewrite F, RD, R. cbn [bind read]. change String.eqb with eqs in G.
  destruct s as [k|k|k]; cbn [child skey] in *; subst k; rewrite G; reflexivity.
Qed.

(** ** The others *)
Lemma proto_in c : In c protos -> prototype c.
Proof. apply protos_in. Qed.
Definition odd_ok (c : cls) (P : plan) : bool :=
  (negb (mem c ["Loader"; "UndergroundBelt"]) ||
   match last_write draftsman c "io_type" None (pl_acts P) with
   | Some (None, AAttr b v) => eqs b "io_type" && keeping draftsman c b && mem "io_type" (params_of c) &&
       (svb v (VUser "type" (svk c "io_type")) || svb v (VUser "type" (VInput (svk c "io_type") (VUser "type" (svk c "io_type")))))
   | _ => false
   end) &&
  (negb (eqs c "ElectricEnergyInterface") ||
   forallb (fun a => match last_write draftsman c a None (pl_acts P) with
                     | Some (None, AAttr b v) => eqs b a && keeping draftsman c b && svb v (VElse (svk c a) (VOf (String.append "default_" a)))
                     | _ => false end) ["buffer_size"; "power_production"; "power_usage"]) &&
  (negb (eqs c "AsteroidCollector") ||
   match last_write draftsman c "chunk_filter" None (pl_acts P) with
   | Some (Some m, AAttr b v) => eqs b "chunk_filter" && svb m (svk c "validate_assignment") && svb v (svk c "chunk_filter")
   | _ => false
   end) &&
  (negb (eqs c "RocketSilo") ||
   match last_write draftsman c "auto_launch" None (pl_acts P) with None => presb (slook (pl_base P) "auto_launch") PUser | _ => false end).
Lemma odds : each odd_ok = true.
Proof. vm_cast_no_check (eq_refl true). Qed.
Lemma odd_part c P : odd_ok c P = true ->
  (In c ["Loader"; "UndergroundBelt"] -> exists v, last_write draftsman c "io_type" None (pl_acts P) = Some (None, AAttr "io_type" v) /\ keeping draftsman c "io_type" = true /\
     (v = VUser "type" (svk c "io_type") \/ v = VUser "type" (VInput (svk c "io_type") (VUser "type" (svk c "io_type"))))) /\
  (c = "ElectricEnergyInterface" -> forall a, In a ["buffer_size"; "power_production"; "power_usage"] ->
     last_write draftsman c a None (pl_acts P) = Some (None, AAttr a (VElse (svk c a) (VOf (String.append "default_" a)))) /\ keeping draftsman c a = true) /\
  (c = "AsteroidCollector" ->
     last_write draftsman c "chunk_filter" None (pl_acts P) = Some (Some (svk c "validate_assignment"), AAttr "chunk_filter" (svk c "chunk_filter"))) /\
  (c = "RocketSilo" -> last_write draftsman c "auto_launch" None (pl_acts P) = None /\ slook (pl_base P) "auto_launch" = PUser).
Proof.
  unfold odd_ok. rewrite !andb_true_iff. intros (((A & B) & C) & D). split; [|split; [|split]].
  - intros I. apply mem_in in I. rewrite I in A. cbn [negb orb] in A.
    destruct (last_write draftsman c "io_type" None (pl_acts P)) as [([m|] & x)|]; try discriminate. destruct x as [b v| | | | |]; try discriminate.
    rewrite !andb_true_iff in A. destruct A as (((A1 & A2) & _) & A3). apply eqs_eq in A1. subst b. exists v. split; [reflexivity|]. split; [exact A2|].
    apply orb_prop in A3. destruct A3 as [A3|A3]; apply svb_eq in A3; [left|right]; exact A3.
  - intros -> a I. rewrite eqs_refl in B. cbn [negb orb] in B. rewrite forallb_forall in B. specialize (B a I). cbv beta in B.
    destruct (last_write draftsman "ElectricEnergyInterface" a None (pl_acts P)) as [([m|] & x)|]; try discriminate. destruct x as [b v| | | | |]; try discriminate.
    rewrite !andb_true_iff in B. destruct B as ((B1 & B2) & B3). apply eqs_eq in B1. subst b. apply svb_eq in B3. subst v. auto.
  - intros ->. rewrite eqs_refl in C. cbn [negb orb] in C.
    destruct (last_write draftsman "AsteroidCollector" "chunk_filter" None (pl_acts P)) as [([m|] & x)|]; try discriminate. destruct x as [b v| | | | |]; try discriminate.
    rewrite !andb_true_iff in C. destruct C as ((C1 & C2) & C3). apply eqs_eq in C1. apply svb_eq in C2, C3. subst. reflexivity.
  - intros ->. rewrite eqs_refl in D. cbn [negb orb] in D.
    destruct (last_write draftsman "RocketSilo" "auto_launch" None (pl_acts P)); [discriminate|]. split; [reflexivity|].
    unfold presb in D. destruct (pres_dec (slook (pl_base P) "auto_launch") PUser); [assumption|discriminate].
Qed.
Definition odd_reads : bool :=
  forallb (fun r => mem (fst r) protos && match find_prop draftsman (fst r) (snd r) with Some q => reads_field (fst r) (snd r) q | None => false end)
    [("Loader", "io_type"); ("UndergroundBelt", "io_type"); ("AsteroidCollector", "chunk_filter"); ("RocketSilo", "auto_launch");
     ("ElectricEnergyInterface", "buffer_size"); ("ElectricEnergyInterface", "power_production"); ("ElectricEnergyInterface", "power_usage")].
Lemma odd_reads_ok : odd_reads = true.
Proof. vm_cast_no_check (eq_refl true). Qed.
Lemma odd_read c a : odd c a -> prototype c /\ exists q, find_prop draftsman c a = Some q /\ reads_field c a q = true.
Proof.
  intros O. pose proof odd_reads_ok as R. unfold odd_reads in R. rewrite forallb_forall in R. specialize (R (c, a) O). cbn [fst snd] in R.
  apply andb_prop in R. destruct R as (R1 & R2). split; [apply protos_in; apply mem_in; exact R1|].
  destruct (find_prop draftsman c a) as [q|]; [|discriminate]. exists q. auto.
Qed.
(** The last write of an attribute that keeps what it is given. *)
Lemma kept_last c a v o : odd c a -> make c = Ok o ->
  (forall P, plan_c c = Some P -> last_write draftsman c a None (pl_acts P) = Some (None, AAttr a v) /\ keeping draftsman c a = true) ->
  get draftsman c a (o_root o) = Ok (sval W kw (name_of W kw c) v).
Proof.
  intros O H L. destruct (odd_read c a O) as (C & q & F & RF). destruct (made_field W kw c o a C H) as (P & M & fs & PL & CM & MO & RT & X).
  destruct (L P PL) as (L1 & L2). rewrite L1 in X. destruct X as (md & w & X1 & (X2 & _) & X3). rewrite RT, (get_field c a q a fs w F RF X3).
  rewrite (X2 X1 L2). reflexivity.
Qed.
Lemma odd_plan c P : prototype c -> plan_c c = Some P -> odd_ok c P = true.
Proof. intros C PL. destruct (each_in _ c odds C) as (P' & PL' & OK). rewrite PL in PL'. injection PL' as <-. exact OK. Qed.
Theorem io_get c v o : In c ["Loader"; "UndergroundBelt"] -> make c = Ok o ->
  dget eqs kw "type" = Some v \/ dget eqs kw "type" = None /\ supplied W c kw "io_type" v -> get draftsman c "io_type" (o_root o) = Ok v.
Proof.
  intros I H S. assert (O : odd c "io_type") by (unfold odd; cbn [In] in *; destruct I as [<-|[<-|[]]]; tauto).
  destruct (odd_read c _ O) as (C & _). destruct (each_in _ c odds C) as (P & PL & OK). destruct (odd_part c P OK) as (X & _). destruct (X I) as (u & L & K & U).
  rewrite (kept_last c "io_type" u o O H); [|intros P' PL'; rewrite PL in PL'; injection PL' as <-; auto]. f_equal.
  destruct S as [S|(S & S')].
  - destruct U as [-> | ->]; cbn [sval]; rewrite S; reflexivity.
  - pose proof (supplied_sval c "io_type" v (name_of W kw c) S') as V. destruct U as [-> | ->]; cbn [sval]; rewrite S; [exact V|].
    change (sval W kw (name_of W kw c) (svk c "io_type")) with (sval W kw (name_of W kw c) (svk c "io_type")) in *. rewrite !V. destruct (is_input W v); reflexivity.
Qed.
Theorem eei_get a v n o : In a ["buffer_size"; "power_production"; "power_usage"] -> make "ElectricEnergyInterface" = Ok o ->
  supplied W "ElectricEnergyInterface" kw a v -> supplied W "ElectricEnergyInterface" kw "name" n ->
  get draftsman "ElectricEnergyInterface" a (o_root o) = Ok (if is_none v then computed W (String.append "default_" a) n else v).
Proof.
  intros I H S Sn. assert (O : odd "ElectricEnergyInterface" a) by (unfold odd; cbn [In] in *; destruct I as [<-|[<-|[<-|[]]]]; tauto).
  destruct (odd_read _ _ O) as (C & _). rewrite (kept_last _ a (VElse (svk "ElectricEnergyInterface" a) (VOf (String.append "default_" a))) o O H).
  - cbn [sval]. rewrite (supplied_sval _ _ v _ S). replace (name_of W kw "ElectricEnergyInterface") with n; [destruct (is_none v); reflexivity|].
    symmetry. exact (supplied_sval _ _ n TNone Sn).
  - intros P PL. destruct (odd_part _ P (odd_plan _ P C PL)) as (_ & X & _). exact (X eq_refl a I).
Qed.
Theorem chunk_get v m md o : make "AsteroidCollector" = Ok o -> supplied W "AsteroidCollector" kw "chunk_filter" v ->
  supplied W "AsteroidCollector" kw "validate_assignment" m -> to_mode W m = Ok md ->
  exists w, takes draftsman (verify W) "AsteroidCollector" md "chunk_filter" v w /\ get draftsman "AsteroidCollector" "chunk_filter" (o_root o) = Ok w.
Proof.
  intros H S Sm Tm. assert (O : odd "AsteroidCollector" "chunk_filter") by (unfold odd; cbn [In]; tauto).
  destruct (odd_read _ _ O) as (C & q & F & RF). destruct (made_field W kw _ o "chunk_filter" C H) as (P & M & fs & PL & CM & MO & RT & X).
  destruct (odd_part _ P (odd_plan _ P C PL)) as (_ & _ & L & _). rewrite (L eq_refl) in X.
  destruct X as (md' & w & X1 & (X2 & X2') & X3). cbn [in_mode] in X1. rewrite (supplied_sval _ _ m _ Sm) in X1.
  assert (md' = md) as -> by congruence. exists w. split; [|rewrite RT; exact (get_field _ _ q _ fs w F RF X3)].
  rewrite (supplied_sval _ _ v _ S) in *. rewrite F in X2'.
  assert (K : keeping draftsman "AsteroidCollector" "chunk_filter" = true /\ exists e m t n p1 p2, p_set q = Plain e m t n p1 p2).
  { assert (E : match find_prop draftsman "AsteroidCollector" "chunk_filter" with Some q => match p_set q with Plain _ _ _ _ _ _ => true | _ => false end | None => false end = true)
      by (vm_cast_no_check (eq_refl true)). unfold keeping. rewrite F in E |- *. destruct (p_set q); try discriminate E. split; [reflexivity|]. repeat eexists. }
  destruct K as (K & (e & m0 & t & n & p1 & p2 & PS)). exists q. split; [exact F|]. rewrite PS in *. cbn [guard] in *.
  destruct (mode_bool md) eqn:MB.
  - right. assert (md <> MNone) as MN by (intros ->; discriminate MB). destruct (X2' (or_introl MN)) as (q' & m' & n' & M0 & F' & G & MO' & D); [intros Z; discriminate Z|].
    rewrite F in F'. injection F' as <-. rewrite PS in G. cbn [guard] in G. injection G as <- <-. exists M0. auto.
  - assert (md = MNone) as -> by (destruct md; try discriminate MB; reflexivity). left. split; [reflexivity|]. split; [repeat eexists|]. exact (X2 eq_refl K).
Qed.
Theorem launch_get o : make "RocketSilo" = Ok o ->
  get draftsman "RocketSilo" "auto_launch" (o_root o) = match dget eqs kw "auto_launch" with Some v => Ok v | None => Err AttributeError end.
Proof.
  intros H. assert (O : odd "RocketSilo" "auto_launch") by (unfold odd; cbn [In]; tauto).
  destruct (odd_read _ _ O) as (C & q & F & RF). destruct (made_field W kw _ o "auto_launch" C H) as (P & M & fs & PL & CM & MO & RT & X).
  destruct (odd_part _ P (odd_plan _ P C PL)) as (_ & _ & _ & L). destruct (L eq_refl) as (L1 & L2). rewrite L1 in X.
  assert (E : match model_of draftsman "RocketSilo" [] with Ok M => negb (mem "auto_launch" (field_names draftsman M)) && negb (claimed tables draftsman M "auto_launch") | Err _ => false end = true)
    by (vm_cast_no_check (eq_refl true)). rewrite MO in E. apply andb_prop in E. destruct E as (E1 & E2). apply negb_true_iff in E1, E2. rewrite E1, E2 in X.
  rewrite (base_user "RocketSilo" P "auto_launch" L2 eq_refl) in X. rewrite RT. unfold get. rewrite F. unfold reads_field in RF.
  assert (G : match find_prop draftsman "RocketSilo" "auto_launch" with Some q => match where_ draftsman "RocketSilo" (p_get q) with Ok [SAttr _] => true | _ => false end | None => false end = true)
    by (vm_cast_no_check (eq_refl true)). rewrite F in G.
  destruct (where_ draftsman "RocketSilo" (p_get q)) as [[|[k|k|k] [|]]|]; try discriminate G. cbn [skey] in RF. apply eqs_eq in RF. subst k.
  cbn [bind read child]. rewrite X. destruct (dget eqs kw "auto_launch"); reflexivity.
Qed.
Theorem inventory_lost o : make "AsteroidCollector" = Ok o -> dget eqs kw "result-inventory" = None ->
  exists M, model_of draftsman "AsteroidCollector" [] = Ok M /\ holds o "result_inventory" (fresh W M "result_inventory").
Proof.
  intros H N. assert (C : prototype "AsteroidCollector") by (apply (odd_read _ "chunk_filter"); unfold odd; cbn [In]; tauto).
  destruct (made_field W kw _ o "result_inventory" C H) as (P & M & fs & PL & CM & MO & RT & X).
  assert (E : match plan_c "AsteroidCollector", model_of draftsman "AsteroidCollector" [] with Some P, Ok M =>
      mem "result_inventory" (field_names draftsman M) && match alias tables draftsman M "result_inventory" with Some k => eqs k "result-inventory" | None => false end &&
      match last_write draftsman "AsteroidCollector" "result_inventory" None (pl_acts P) with None => true | _ => false end &&
      presb (slook (pl_base P) "result-inventory") PUser && presb (slook (pl_base P) "result_inventory") PNo | _, _ => false end = true)
    by (vm_cast_no_check (eq_refl true)). rewrite PL, MO in E. rewrite !andb_true_iff in E. destruct E as ((((E1 & E2) & E3) & E4) & E5).
  destruct (last_write draftsman "AsteroidCollector" "result_inventory" None (pl_acts P)); [discriminate|]. rewrite E1 in X.
  destruct (alias tables draftsman M "result_inventory") as [k|]; [|discriminate]. apply eqs_eq in E2. subst k.
  unfold presb in E4, E5. destruct (pres_dec (slook (pl_base P) "result-inventory") PUser) as [SL|]; [|discriminate].
  destruct (pres_dec (slook (pl_base P) "result_inventory") PNo) as [SL'|]; [|discriminate].
  rewrite (base_user _ P _ SL eq_refl), N in X. unfold base_value at 1, base_get in X. rewrite SL' in X. cbn [pv] in X.
  destruct X as (w & X1 & X2). cbn in X2. subst w. exists M. split; [exact MO|]. exists fs. auto.
Qed.

(** ** Fields with setters written by hand *)
Definition makers : list (string * cls) := [("name", "Entity"); ("direction", "DirectionalMixin"); ("direction", "EightWayDirectionalMixin");
  ("orientation", "OrientationMixin"); ("items", "RequestItemsMixin"); ("link_id", "LinkedContainer")].
Definition hand_ok (c : cls) (P : plan) : bool :=
  match order draftsman c with
  | Ok m => forallb (fun r => negb (mem (snd r) m) ||
      match last_write draftsman c (fst r) None (pl_acts P) with
      | Some (None, ACustom f v) => eqs f (fst r) && svb v (if eqs c "ArtilleryTurret" && eqs f "items" then VUser "items" (VConst DDict) else svk c f)
      | _ => false
      end) makers
  | Err _ => false
  end.
Lemma hands : each hand_ok = true.
Proof. vm_cast_no_check (eq_refl true). Qed.
Lemma adapt_settled f v w : adapt W f v = Ok w -> settled W f v w.
Proof.
  unfold adapt. destruct (eqs f "items") eqn:E1; [|destruct (eqs f "orientation") eqn:E2]; intros H.
  - apply eqs_eq in E1. subst f. injection H as <-. destruct (is_none v) eqn:N.
    + apply settled_items; [reflexivity|]. destruct v; [reflexivity|discriminate|discriminate|discriminate].
    + apply settled_as_is; [discriminate|]. right. intros ->. discriminate.
  - apply eqs_eq in E2. apply settled_orientation; assumption.
  - injection H as <-. apply settled_as_is; [intros ->; discriminate|]. left. intros ->. discriminate.
Qed.
Lemma hand_field c f o : prototype c -> handmade c f -> make c = Ok o ->
  exists w, holds o f w /\ settled W f (sval W kw (name_of W kw c) (if eqs c "ArtilleryTurret" && eqs f "items" then VUser "items" (VConst DDict) else svk c f)) w.
Proof.
  intros C (m & d & OR & D & I) H. destruct (made_field W kw c o f C H) as (P & M & fs & PL & CM & MO & RT & X).
  destruct (each_in _ c hands C) as (P' & PL' & HO). rewrite PL in PL'. injection PL' as <-. unfold hand_ok in HO. rewrite OR in HO.
  rewrite forallb_forall in HO. specialize (HO (f, d) I). cbn [fst snd] in HO. apply mem_in in D. rewrite D in HO. cbn [negb orb] in HO.
  destruct (last_write draftsman c f None (pl_acts P)) as [([|] & x)|]; try discriminate. destruct x as [|g v| | | |]; try discriminate.
  apply andb_prop in HO. destruct HO as (H1 & H2). apply eqs_eq in H1. subst g. apply svb_eq in H2. subst v.
  destruct X as (md & w & X1 & X2 & X3). cbn [lands] in X2. exists w. split; [exists fs; auto|]. apply adapt_settled. exact X2.
Qed.
Theorem hand_get c f v o : prototype c -> handmade c f -> (c, f) <> ("ArtilleryTurret", "items") -> make c = Ok o -> supplied W c kw f v ->
  exists w, holds o f w /\ settled W f v w.
Proof.
  intros C Hm N H S. destruct (hand_field c f o C Hm H) as (w & A & B). exists w. split; [exact A|].
  destruct (eqs c "ArtilleryTurret" && eqs f "items") eqn:E.
  - apply andb_prop in E. destruct E as (E1 & E2). apply eqs_eq in E1, E2. exfalso. apply N. rewrite E1, E2. reflexivity.
  - rewrite (supplied_sval c f v _ S) in B. exact B.
Qed.
Theorem turret_items o : make "ArtilleryTurret" = Ok o ->
  exists w, holds o "items" w /\ settled W "items" (match dget eqs kw "items" with Some v => v | None => constant W DDict end) w.
Proof.
  intros H. assert (E : match order draftsman "ArtilleryTurret" with Ok m => mem "RequestItemsMixin" m && mem "ArtilleryTurret" protos | Err _ => false end = true)
    by (vm_cast_no_check (eq_refl true)). destruct (order draftsman "ArtilleryTurret") as [m|] eqn:OR; [|discriminate]. apply andb_prop in E. destruct E as (E1 & E2).
  apply mem_in in E1, E2. assert (C : prototype "ArtilleryTurret") by (apply protos_in; exact E2).
  assert (HM : handmade "ArtilleryTurret" "items") by (exists m, "RequestItemsMixin"; split; [exact OR|]; split; [exact E1|]; right; right; right; right; left; reflexivity).
  exact (hand_field _ _ o C HM H).
Qed.
End Claims.
