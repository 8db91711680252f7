(** Proofs about the constructors of draftsman's entities: the plans of all classes. *)
From Coq Require Import ZArith String List Bool.
From Verif Require Import Common Dict Version_Model Assign_Model Attr_Model Attr_Table Attr_Spec Attr_Order_Proofs Attr_Proofs Attr_Facts_Proofs
  Ctor_Model Ctor_Table Ctor_Proofs Ctor_Plan_Proofs Ctor_Spec.
Import ListNotations.
Local Open Scope string_scope.
Local Open Scope list_scope.

Definition protos : list cls := filter (fun c => negb (eqs c "Entity")) entity_classes.
Lemma protos_in c : prototype c <-> In c protos.
Proof.
  unfold prototype, protos. rewrite filter_In. split; intros (A & B); (split; [exact A|]).
  - apply negb_true_iff. destruct (eqs c "Entity") eqn:E; [|reflexivity]. apply eqs_eq in E. contradiction.
  - intros ->. discriminate.
Qed.
Definition params_of (d : cls) : list string :=
  if eqs d "Entity" then map fst entity_params else match dget eqs inits d with Some i => map fst (i_params i) | None => [] end.
Lemma params_iff d k : has_parameter d k <-> mem k (params_of d) = true.
Proof.
  unfold has_parameter, params_of. change String.eqb with eqs. rewrite mem_in. destruct (eqs d "Entity"); [reflexivity|].
  destruct (dget eqs inits d) as [i|]; split.
  - intros (j & H & I). injection H as <-. exact I.
  - intros I. exists i. auto.
  - intros (j & H & I). discriminate.
  - intros [].
Qed.
(** The symbolic value of a keyword. *)
Definition svk (c : cls) (k : string) : sv :=
  VUser k (if mem k (params_of c) then VDefault c k else if mem k (params_of "Entity") then VDefault "Entity" k else VConst DNone).
Lemma svk_supplied W c kw n k v : supplied W c kw k v <-> sval W kw n (svk c k) = v.
Proof.
  unfold svk. cbn [sval]. change String.eqb with eqs in *. split.
  - intros [v' H|H P|H N P|H N N']; change String.eqb with eqs in H; rewrite H.
    + reflexivity.
    + apply params_iff in P. rewrite P. reflexivity.
    + apply params_iff in P. destruct (mem k (params_of c)) eqn:E; [apply params_iff in E; contradiction|]. rewrite P. reflexivity.
    + destruct (mem k (params_of c)) eqn:E; [apply params_iff in E; contradiction|].
      destruct (mem k (params_of "Entity")) eqn:E'; [apply params_iff in E'; contradiction|]. reflexivity.
  - intros <-. destruct (dget eqs kw k) as [v'|] eqn:G; [apply supplied_given; exact G|].
    destruct (mem k (params_of c)) eqn:E; [apply supplied_default; [exact G|apply params_iff; exact E]|].
    assert (NP : ~ has_parameter c k) by (intros P; apply params_iff in P; congruence).
    destruct (mem k (params_of "Entity")) eqn:E'; [apply supplied_entity; [exact G|exact NP|apply params_iff; exact E']|].
    apply supplied_none; [exact G|exact NP|]. intros P. apply params_iff in P. congruence.
Qed.

Definition sv_dec (a b : sv) : {a = b} + {a <> b}.
Proof. repeat decide equality. Defined.
Definition svb (a b : sv) : bool := if sv_dec a b then true else false.
Lemma svb_eq a b : svb a b = true -> a = b.
Proof. unfold svb. destruct (sv_dec a b); [trivial|discriminate]. Qed.

(** ** Checks of all plans *)
Definition plan_c (c : cls) : option plan := plan_of tables draftsman c.
Definition each_of (pl : cls -> option plan) (Q : cls -> plan -> bool) (l : list cls) : bool :=
  forallb (fun c => match pl c with Some P => Q c P | None => false end) l.
Lemma each_of_in pl Q l c : each_of pl Q l = true -> In c l -> exists P, pl c = Some P /\ Q c P = true.
Proof.
  unfold each_of. intros H C. rewrite forallb_forall in H. specialize (H c C). destruct (pl c) as [P|]; [|discriminate].
  exists P. split; [reflexivity|exact H].
Qed.
Definition each (Q : cls -> plan -> bool) : bool := each_of plan_c Q protos.
Lemma each_in Q c : each Q = true -> prototype c -> exists P, plan_c c = Some P /\ Q c P = true.
Proof. unfold each. intros H C. apply (each_of_in plan_c Q protos c H). apply protos_in. exact C. Qed.
Definition strs (a b : list string) : bool := if list_eq_dec string_dec a b then true else false.
Definition model_c (c : cls) : cls := match model_of draftsman c [] with Ok M => M | Err _ => "" end.
(** What all plans have in common. *)
Definition common (c : cls) (P : plan) : bool :=
  strs (pl_bad P) ["similar_entities"] && strs (pl_need P) [] && svb (pl_name P) (svk c "name") && svb (pl_quality P) (svk c "quality") &&
  forallb (plain_act draftsman c) (pl_acts P) &&
  match fold_left next_mode (pl_acts P) None with Some v => svb v (svk c "validate_assignment") | None => false end &&
  match fold_left next_place (pl_acts P) None with Some (a, b) => svb a (svk c "position") && svb b (svk c "tile_position") | None => false end &&
  match fold_left (next_own "id") (pl_acts P) None with Some v => svb v (svk c "id") | None => false end &&
  match fold_left (next_own "similar_entities") (pl_acts P) None with Some v => svb v (VConst DNames) | None => false end &&
  match model_of draftsman c [] with Ok _ => true | Err _ => false end.
Lemma commons : each common = true.
Proof. vm_cast_no_check (eq_refl true). Qed.

Section Made.
Variables (W : world) (kw : dict).
Notation make c := (new tables W draftsman c kw).

Lemma ungiven : given kw "similar_entities" = false <-> dget eqs kw "similar_entities" = None.
Proof. unfold given. destruct (dget eqs kw "similar_entities"); split; congruence. Qed.
Definition name_of (c : cls) : tree := sval W kw TNone (svk c "name").
Lemma name_closed c n : sval W kw n (svk c "name") = name_of c.
Proof. unfold name_of, svk. cbn [sval]. destruct (dget eqs kw "name"); [reflexivity|]. destruct (mem "name" (params_of c)); reflexivity. Qed.

(** The steps of a constructor. *)
Lemma common_parts c P : common c P = true ->
  pl_bad P = ["similar_entities"] /\ pl_need P = [] /\ pl_name P = svk c "name" /\ pl_quality P = svk c "quality" /\ 
  forallb (plain_act draftsman c) (pl_acts P) = true /\ fold_left next_mode (pl_acts P) None = Some (svk c "validate_assignment") /\
  fold_left next_place (pl_acts P) None = Some (svk c "position", svk c "tile_position") /\
  fold_left (next_own "id") (pl_acts P) None = Some (svk c "id") /\
  fold_left (next_own "similar_entities") (pl_acts P) None = Some (VConst DNames) /\ exists M, model_of draftsman c [] = Ok M.
Proof.
  unfold common, strs. rewrite !andb_true_iff. intros (((((((((X1 & X2) & X3) & X4) & X5) & X6) & X7) & X8) & X9) & X10).
  split; [destruct (list_eq_dec string_dec (pl_bad P) _); [assumption|discriminate]|].
  split; [destruct (list_eq_dec string_dec (pl_need P) _); [assumption|discriminate]|].
  split; [exact (svb_eq _ _ X3)|]. split; [exact (svb_eq _ _ X4)|]. split; [exact X5|].
  split; [destruct (fold_left next_mode _ _); [f_equal; exact (svb_eq _ _ X6)|discriminate]|].
  split; [destruct (fold_left next_place _ _) as [(a & b)|]; [|discriminate]; apply andb_prop in X7; destruct X7 as (Y1 & Y2); apply svb_eq in Y1, Y2; congruence|].
  split; [destruct (fold_left (next_own "id") _ _); [f_equal; exact (svb_eq _ _ X8)|discriminate]|].
  split; [destruct (fold_left (next_own "similar_entities") _ _); [f_equal; exact (svb_eq _ _ X9)|discriminate]|].
  destruct (model_of draftsman c []) as [M|]; [exists M; reflexivity|discriminate].
Qed.
Theorem make_refused c : prototype c -> given kw "similar_entities" = true -> make c = Err TypeError.
Proof.
  intros C G. destruct (each_in _ c commons C) as (P & PL & CM). destruct (common_parts c P CM) as (X1 & X2 & _).
  pose proof (plan_ok tables W draftsman c kw P PL) as (_ & H). rewrite X1, X2 in H. cbn [forallb existsb andb] in H. rewrite G in H. exact H.
Qed.
Theorem make_steps c : prototype c -> given kw "similar_entities" = false -> exists P M d, plan_c c = Some P /\ common c P = true /\ model_of draftsman c [] = Ok M /\
  (forall k, dget eqs d k = base_get W kw (name_of c) (pl_base P) (pl_name P) (pl_quality P) k) /\
  (forall k v, In (k, v) d -> exists u, dget eqs d k = Some u) /\
  make c = if is_none (name_of c) then Err DataFormatError else
           let* root := build tables W draftsman M d in do_acts W draftsman c kw (name_of c) (start root) (pl_acts P).
Proof.
  intros C G. destruct (each_in _ c commons C) as (P & PL & CM). exists P.
  destruct (common_parts c P CM) as (X1 & X2 & X3 & _ & _ & _ & _ & _ & _ & M & MO). exists M.
  pose proof (plan_ok tables W draftsman c kw P PL) as (_ & H). rewrite X1, X2 in H. cbn [forallb existsb andb] in H. rewrite orb_false_r, G in H. cbn [negb] in H.
  assert (NM : sval W kw TNone (pl_name P) = name_of c) by (rewrite X3; reflexivity). rewrite NM in H.
  destruct H as (d & D1 & D2 & D3). exists d. rewrite D3, MO. auto 10.
Qed.
Lemma make_given c o : prototype c -> make c = Ok o -> given kw "similar_entities" = false.
Proof. intros C H. destruct (given kw "similar_entities") eqn:G; [|reflexivity]. rewrite (make_refused c C G) in H. discriminate. Qed.

(** Fields of the object. *)
Definition base_value (c : cls) (P : plan) (k : string) : option tree := base_get W kw (name_of c) (pl_base P) (pl_name P) (pl_quality P) k.
Theorem made_field c o f : prototype c -> make c = Ok o -> exists P M fs, plan_c c = Some P /\ common c P = true /\ model_of draftsman c [] = Ok M /\
  o_root o = TModel fs /\
  match last_write draftsman c f None (pl_acts P) with
  | Some (m, x) => exists md w, in_mode W kw (name_of c) m md /\ lands W draftsman c kw (name_of c) md x w /\ dget eqs fs f = Some w
  | None =>
    if mem f (field_names draftsman M) then
      exists w, dget eqs fs f = Some w /\
        match match alias tables draftsman M f with
              | Some k => match base_value c P k with Some v => Some v | None => base_value c P f end
              | None => base_value c P f
              end with Some v => convert W M f v = Ok w | None => w = fresh W M f end
    else dget eqs fs f = if claimed tables draftsman M f then None else base_value c P f
  end.
Proof.
  intros C H. destruct (make_steps c C (make_given c o C H)) as (P & M & d & PL & CM & MO & D1 & D2 & D3). rewrite D3 in H.
  destruct (is_none (name_of c)); [discriminate|]. destruct (build tables W draftsman M d) as [root|] eqn:B; [|discriminate]. cbn [bind] in H.
  destruct (build_get tables W draftsman d M root f B D2) as (fs0 & -> & G). destruct (common_parts c P CM) as (_ & _ & _ & _ & PA & _).
  destruct (last_write_ok W draftsman c kw (name_of c) f (pl_acts P) None (start (TModel fs0)) o fs0 PA eq_refl eq_refl H) as (fs & R & X).
  exists P, M, fs. do 4 (split; [assumption|]). destruct (last_write draftsman c f None (pl_acts P)) as [(m & x)|]; [exact X|].
  unfold value_for in G. unfold base_value. destruct (mem f (field_names draftsman M)).
  - destruct G as (w & G1 & G2). exists w. split; [rewrite X; exact G1|]. destruct (alias tables draftsman M f); rewrite <- !D1; exact G2.
  - rewrite X, G. destruct (claimed tables draftsman M f); [reflexivity|]. rewrite D1. reflexivity.
Qed.
Theorem made_rest c o : prototype c -> make c = Ok o ->
  to_mode W (sval W kw (name_of c) (svk c "validate_assignment")) = Ok (o_mode o) /\
  o_place o = place_of (sval W kw (name_of c) (svk c "position")) (sval W kw (name_of c) (svk c "tile_position")) /\
  dget eqs (o_own o) "id" = Some (sval W kw (name_of c) (svk c "id")) /\
  dget eqs (o_own o) "similar_entities" = Some (constant W DNames).
Proof.
  intros C H. destruct (make_steps c C (make_given c o C H)) as (P & M & d & PL & CM & MO & D1 & D2 & D3). rewrite D3 in H.
  destruct (is_none (name_of c)); [discriminate|]. destruct (build tables W draftsman M d) as [root|] eqn:B; [|discriminate]. cbn [bind] in H.
  destruct (common_parts c P CM) as (_ & _ & _ & _ & _ & X1 & X2 & X3 & X4 & _).
  pose proof (last_mode_ok W draftsman c kw (name_of c) _ None (start root) o eq_refl H) as Y1. rewrite X1 in Y1.
  pose proof (last_place_ok W draftsman c kw (name_of c) _ None (start root) o Logic.I H) as Y2. rewrite X2 in Y2.
  pose proof (last_own_ok W draftsman c kw (name_of c) "id" _ None (start root) o eq_refl H) as Y3. rewrite X3 in Y3.
  pose proof (last_own_ok W draftsman c kw (name_of c) "similar_entities" _ None (start root) o eq_refl H) as Y4. rewrite X4 in Y4.
  auto.
Qed.
End Made.

(** ** Attributes *)
Definition outer_field (c : cls) (q : property) : option string := match setter_cell draftsman c (p_set q) with Some ([], f) => Some f | _ => None end.
Definition is_once (c a : string) : bool :=
  mem a ["control_behavior"; "equipment_grid"; "priority_list"; "ignore_unprioritized"; "use_filters"] || inb c a [("Lamp", "color")].
Definition is_strict (c a : string) : bool :=
  mem a ["request_filters"; "inventory"; "filters"; "infinity_settings"; "parameters"; "alert_parameters"; "color"] && negb (inb c a [("Lamp", "color")]).
Definition is_odd (c a : string) : bool := inb c a
  [("Loader", "io_type"); ("UndergroundBelt", "io_type"); ("AsteroidCollector", "chunk_filter"); ("RocketSilo", "auto_launch");
   ("ElectricEnergyInterface", "buffer_size"); ("ElectricEnergyInterface", "power_production"); ("ElectricEnergyInterface", "power_usage")].
Definition is_emptied (c a : string) : bool := inb c a
  [("ConstantCombinator", "tags"); ("ElectricPole", "tags"); ("ConstantCombinator", "control_behavior"); ("DeciderCombinator", "control_behavior")].
Lemma once_iff c a : once c a <-> is_once c a = true.
Proof. unfold once, is_once. rewrite orb_true_iff, mem_in, inb_in. cbn [In]. intuition congruence. Qed.
Lemma strict_iff c a : strictly c a <-> is_strict c a = true.
Proof.
  unfold strictly, is_strict. rewrite andb_true_iff, mem_in, negb_true_iff, <- not_true_iff_false, inb_in. cbn [In]. intuition congruence.
Qed.
Lemma odd_iff c a : odd c a <-> is_odd c a = true.
Proof. unfold odd, is_odd. rewrite inb_in. reflexivity. Qed.
Lemma emptied_iff c a : emptied c a <-> is_emptied c a = true.
Proof. unfold emptied, is_emptied. rewrite inb_in. reflexivity. Qed.
Definition fill (c a : string) (v : sv) : sv := if is_emptied c a then VElse v (VConst DDict) else v.
Lemma fill_filled W kw n c a v w : filled W c a (sval W kw n v) w -> sval W kw n (fill c a v) = w.
Proof.
  unfold fill. intros [H|H E].
  - destruct (is_emptied c a) eqn:E; [|reflexivity]. apply emptied_iff in E. destruct H as [H|H]; [|contradiction].
    cbn [sval]. destruct (sval W kw n v); cbn [is_none]; congruence.
  - apply emptied_iff in E. rewrite E. cbn [sval]. rewrite H. reflexivity.
Qed.
Definition reads_field (c : cls) (f : string) (q : property) : bool :=
  match where_ draftsman c (p_get q) with Ok [s] => eqs (skey s) f | _ => false end.
Definition pres_dec (a b : pres) : {a = b} + {a <> b}.
Proof. decide equality. apply sv_dec. Defined.
Definition presb (a b : pres) : bool := if pres_dec a b then true else false.
Definition row_ok (c : cls) (P : plan) (M : cls) (a : string) (q : property) : bool :=
  match outer_field c q with
  | None => true
  | Some f =>
    if is_odd c a then true
    else
      (inb c a misread || reads_field c f q) &&
      (if is_once c a then
         eqs f (keyword a) && mem f (field_names draftsman M) &&
         match last_write draftsman c f None (pl_acts P) with None => true | Some _ => false end &&
         negb (mem f ["name"; "quality"; "position"; "entity_number"]) &&
         presb (slook (pl_base P) f) (if mem f (params_of c) then PSure (fill c a (svk c f)) else PUser) &&
         (mem f (params_of c) || negb (is_emptied c a) && negb (mem f (params_of "Entity"))) &&
         match alias tables draftsman M f, other_key a with
         | None, None => true
         | Some k, Some j => eqs k j && presb (slook (pl_base P) k) PUser && negb (mem k ["name"; "quality"; "position"; "entity_number"])
         | _, _ => false
         end
       else match last_write draftsman c f None (pl_acts P) with
            | Some (None, AAttr b v) =>
              eqs a b && svb v (fill c a (svk c (keyword a))) &&
              (if is_strict c a then negb (keeping draftsman c a) && match guard (p_set q) with Some _ => true | None => false end && negb (is_emptied c a)
               else keeping draftsman c a)
            | Some (None, AField g v) => negb (is_strict c a) && svb v (fill c a (svk c (keyword a)))
            | _ => false
            end)
  end.
Definition rows_ok (c : cls) (P : plan) : bool :=
  match model_of draftsman c [] with Ok M => forallb (fun r => row_ok c P M (fst r) (snd r)) (rows draftsman c) | Err _ => false end.
Lemma all_rows_ok : each rows_ok = true.
Proof. vm_cast_no_check (eq_refl true). Qed.
