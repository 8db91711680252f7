(** Proofs about constructors: parameters without attributes. *)
From Coq Require Import ZArith String List Bool.
From Verif Require Import Common Dict Version_Model Assign_Model Attr_Model Attr_Table Attr_Spec Attr_Order_Proofs Attr_Proofs Attr_Facts_Proofs
  Ctor_Model Ctor_Table Ctor_Proofs Ctor_Plan_Proofs Ctor_Spec Ctor_Facts_Proofs Ctor_Claims_Proofs Ctor_Other_Proofs.
Import ListNotations.
Local Open Scope string_scope.
Local Open Scope list_scope.

Definition passed_list : list (string * string) :=
  [("AgriculturalTower", "direction"); ("AgriculturalTower", "override_stack_size"); ("AgriculturalTower", "items");
   ("Car", "trunk_inventory"); ("Car", "ammo_inventory"); ("SpiderVehicle", "trunk_inventory"); ("SpiderVehicle", "ammo_inventory");
   ("FluidWagon", "enable_logistics_while_moving"); ("FluidWagon", "grid"); ("ConstantCombinator", "connections")].
Definition emptied_too (c k : string) : bool := eqs c "ConstantCombinator" && eqs k "connections".
Definition passed_ok (c : cls) (P : plan) : bool :=
  match model_of draftsman c [] with
  | Ok M => forallb (fun p => negb (eqs (fst p) c) ||
      match last_write draftsman c (snd p) None (pl_acts P) with None => true | Some _ => false end &&
      negb (mem (snd p) ["name"; "quality"; "position"; "entity_number"]) &&
      presb (slook (pl_base P) (snd p)) (PSure (if emptied_too c (snd p) then VElse (svk c (snd p)) (VConst DDict) else svk c (snd p))) &&
      match alias tables draftsman M (snd p) with None => true | Some _ => false end &&
      (declared draftsman M (snd p) || negb (claimed tables draftsman M (snd p)))) passed_list
  | Err _ => false
  end.
Lemma passeds : each passed_ok = true.
Proof. vm_cast_no_check (eq_refl true). Qed.
Lemma passed_prototype c k : passed c k -> prototype c.
Proof.
  intros H. apply protos_in. apply mem_in. unfold passed in H. repeat (destruct H as [H|H]; [injection H as <- <-; vm_compute; reflexivity|]). destruct H.
Qed.
Theorem passed_field W kw c k v o : passed c k -> new tables W draftsman c kw = Ok o -> supplied W c kw k v ->
  exists M w, model_of draftsman c [] = Ok M /\ holds o k w /\
    along W M k (if is_none v && emptied_too c k then constant W DDict else v) w.
Proof.
  intros Pa H S. pose proof (passed_prototype c k Pa) as C. destruct (made_field W kw c o k C H) as (P & M & fs & PL & CM & MO & RT & X).
  destruct (each_in _ c passeds C) as (P' & PL' & OK). rewrite PL in PL'. injection PL' as <-. unfold passed_ok in OK. rewrite MO in OK.
  rewrite forallb_forall in OK. specialize (OK (c, k) Pa). cbn [fst snd] in OK. rewrite eqs_refl in OK. cbn [negb orb] in OK.
  rewrite !andb_true_iff in OK. destruct OK as ((((O1 & O2) & O3) & O4) & O5).
  destruct (last_write draftsman c k None (pl_acts P)); [discriminate O1|].
  apply negb_true_iff in O2. unfold presb in O3. destruct (pres_dec _ _) as [O|]; [|discriminate O3]. clear O3.
  destruct (alias tables draftsman M k); [discriminate O4|].
  rewrite (base_sure W kw c P k _ O O2) in X. rewrite field_declared in X.
  assert (V : sval W kw (name_of W kw c) (if emptied_too c k then VElse (svk c k) (VConst DDict) else svk c k) = if is_none v && emptied_too c k then constant W DDict else v).
  { pose proof (supplied_sval W kw c k v (name_of W kw c) S) as E. destruct (emptied_too c k); [cbn [sval]; rewrite E; rewrite andb_true_r; reflexivity|rewrite andb_false_r; exact E]. }
  rewrite V in X. exists M. destruct (declared draftsman M k) eqn:D.
  - destruct X as (w & G & K). exists w. split; [exact MO|]. split; [exists fs; auto|]. apply along_declared; assumption.
  - eexists. split; [exact MO|]. cbn [orb] in O5. apply negb_true_iff in O5. rewrite O5 in X. split; [exists fs; split; [exact RT|exact X]|]. apply along_extra. exact D.
Qed.

(** Every parameter is one of those of which something is said. *)
Definition said (c : cls) (k : string) : bool :=
  match order draftsman c with
  | Ok m => existsb (fun r => match outer_field c (snd r) with Some _ => eqs (keyword (fst r)) k | None => false end) (rows draftsman c) ||
            existsb (fun r => eqs (fst r) k && mem (snd r) m) makers
  | Err _ => false
  end || mem k ["position"; "tile_position"; "id"; "validate_assignment"; "validate"] || inb c k passed_list || inb c k [("AsteroidCollector", "result_inventory")].
Lemma saids : each (fun c _ => forallb (said c) (params_of c)) = true.
Proof. vm_cast_no_check (eq_refl true). Qed.
Theorem parameters_said c k : prototype c -> has_parameter c k ->
  (exists a, outer c a /\ keyword a = k) \/ handmade c k \/ In k ["position"; "tile_position"; "id"; "validate_assignment"; "validate"] \/ passed c k \/
  (c, k) = ("AsteroidCollector", "result_inventory").
Proof.
  intros C HP. destruct (each_in _ c saids C) as (P & _ & K). rewrite forallb_forall in K. apply params_iff in HP. apply mem_in in HP. specialize (K k HP).
  unfold said in K. rewrite !orb_true_iff in K. destruct K as [[[K|K]|K]|K].
  - destruct (order draftsman c) as [m|] eqn:OR; [|discriminate K]. rewrite orb_true_iff, !existsb_exists in K. destruct K as [(r & I & X)|(r & I & X)].
    + left. destruct (outer_field c (snd r)) as [f|] eqn:OF; [|discriminate X]. exists (fst r). apply eqs_eq in X. split; [|exact X].
      destruct r as (a & q). apply rows_in in I. cbn [fst snd] in *. exists f. unfold outer_field in OF.
      destruct (setter_cell draftsman c (p_set q)) as [[[|s l] g]|] eqn:SC; try discriminate OF. injection OF as ->. exists q. split; [exact I|exact (setter_cell_keeps _ _ _ _ SC)].
    + right. left. apply andb_prop in X. destruct X as (X1 & X2). apply eqs_eq in X1. apply mem_in in X2. exists m, (snd r). split; [exact OR|]. split; [exact X2|].
      destruct r as (f & d). cbn [fst snd] in *. subst f. exact I.
  - right. right. left. apply mem_in. exact K.
  - right. right. right. left. unfold passed. unfold inb in K. rewrite existsb_exists in K. destruct K as (r & I & X). apply andb_prop in X. destruct X as (X1 & X2).
    apply eqs_eq in X1, X2. destruct r as (c' & k'). cbn [fst snd] in *. subst. exact I.
  - right. right. right. right. unfold inb in K. cbn [existsb fst snd] in K. rewrite orb_false_r in K. apply andb_prop in K. destruct K as (X1 & X2). apply String.eqb_eq in X1, X2. subst c k. reflexivity.
Qed.
