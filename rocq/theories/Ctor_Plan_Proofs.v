(** The plan of a class: everything its constructor does, symbolically. *)
From Coq Require Import ZArith String List Bool.
From Verif Require Import Common Dict Version_Model Assign_Model Attr_Model Attr_Spec Attr_Order_Proofs Attr_Proofs Attr_Facts_Proofs Ctor_Model Ctor_Proofs.
Import ListNotations.
Local Open Scope string_scope.
Local Open Scope list_scope.

Record plan := { pl_base : skw; pl_name : sv; pl_quality : sv; pl_need : list string; pl_bad : list string; pl_acts : list act }.
Definition plan_of (T : data) (L : lib) (c : cls) : option plan :=
  match chain T L c with
  | Err _ => None
  | Ok ch =>
    match flatten T ch [] with
    | None => None
    | Some F =>
      match sbind "Entity" entity_params (f_base F) with
      | None => None
      | Some (se, need) =>
        let s := swithout (map fst entity_params) (f_base F) in
        match dget eqs se "name", dget eqs se "quality", acts_of se s entity_post with
        | Some vn, Some vq, Some al =>
          match al with
          | AKeep n v :: ACustom a w :: r =>
            if closed vn && closed vq && forallb act_closed al && eqs a "name" && forallb (nameless L c) r && forallb (nameless L c) (f_acts F)
            then Some {| pl_base := s; pl_name := vn; pl_quality := vq; pl_need := f_need F ++ need; pl_bad := f_bad F; pl_acts := al ++ f_acts F |}
            else None
          | _ => None
          end
        | _, _, _ => None
        end
      end
    end
  end.

Section Plan.
Variables (T : data) (W : world) (L : lib) (c : cls) (kw : dict).

Lemma sval_closed n n' v : closed v = true -> sval W kw n v = sval W kw n' v.
Proof.
  induction v as [k a IH|d p|d|a|a IHa b IHb|a IHa b IHb]; cbn [closed sval]; intros H; try reflexivity; try discriminate.
  - rewrite (IH H). reflexivity.
  - apply andb_prop in H. rewrite (IHa (proj1 H)), (IHb (proj2 H)). reflexivity.
  - apply andb_prop in H. rewrite (IHa (proj1 H)), (IHb (proj2 H)). reflexivity.
Qed.

(** What the constructor does. *)
Theorem plan_ok P : plan_of T L c = Some P ->
  let nm := sval W kw TNone (pl_name P) in
  closed (pl_name P) = true /\
  if forallb (given kw) (pl_need P) && negb (existsb (given kw) (pl_bad P)) then
    exists d, (forall k, dget eqs d k = base_get W kw nm (pl_base P) (pl_name P) (pl_quality P) k) /\
      (forall k v, In (k, v) d -> exists u, dget eqs d k = Some u) /\
      new T W L c kw = if is_none nm then Err DataFormatError else
        let* M := model_of L c [] in let* root := build T W L M d in do_acts W L c kw nm (start root) (pl_acts P)
  else new T W L c kw = Err TypeError.
Proof.
  unfold plan_of, new. destruct (chain T L c) as [ch|]; [|discriminate]. cbn [bind].
  destruct (flatten T ch []) as [F|] eqn:FL; [|discriminate].
  destruct (sbind "Entity" entity_params (f_base F)) as [(se & need)|] eqn:SB; [|discriminate].
  destruct (dget eqs se "name") as [vn|] eqn:VN; [|discriminate]. destruct (dget eqs se "quality") as [vq|] eqn:VQ; [|discriminate].
  destruct (acts_of se (swithout (map fst entity_params) (f_base F)) entity_post) as [al|] eqn:AC; [|discriminate].
  destruct al as [|[]]; try discriminate. destruct al as [|[]]; try discriminate.
  match goal with |- (if ?b then _ else _) = _ -> _ => destruct b eqn:B end; [|discriminate].
  intros H. injection H as <-. cbn [pl_base pl_name pl_quality pl_need pl_bad pl_acts].
  apply andb_prop in B. destruct B as (B & B6). apply andb_prop in B. destruct B as (B & B5). apply andb_prop in B. destruct B as (B & B4).
  apply andb_prop in B. destruct B as (B & B3). apply andb_prop in B. destruct B as (B1 & B2).
  set (nm := sval W kw TNone vn). cbv zeta. split; [exact B1|].
  assert (NMV : sval W kw nm vn = nm) by exact (sval_closed _ _ _ B1).
  assert (A0 : agree W kw nm [] kw) by (intros k; reflexivity).
  (* the name is the parameter *)
  assert (a0 = "name" /\ v0 = vn) as (-> & ->).
  { apply eqs_eq in B4. subst a0. split; [reflexivity|]. unfold entity_post in AC. cbn [acts_of act_of seval] in AC. rewrite VN in AC.
    destruct (dget eqs se "similar_entities"); cbn [option_map omap2] in AC; [|discriminate].
    destruct (dget eqs se "quality"); cbn [option_map omap2] in AC; [|discriminate].
    destruct (dget eqs se "id"); cbn [option_map omap2] in AC; [|discriminate].
    destruct (dget eqs se "tile_position"); cbn [option_map omap2] in AC; [|discriminate]. injection AC as _ _ AC. symmetry. exact AC. }
  assert (EN : forall kw' o, agree W kw nm (f_base F) kw' -> entity_init T W L c kw' = Ok o -> shaped nm (o_root o)).
  { intros kw' o A EI. pose proof (entity_ok T W L c kw nm (f_base F) kw' se need _ vn vq A SB VN VQ AC B3) as H.
    destruct (forallb (given kw) need); [|rewrite H in EI; discriminate]. destruct H as (d & _ & _ & H). rewrite H in EI. clear H.
    destruct (is_none (sval W kw nm vn)); [discriminate|]. destruct (model_of L c []) as [M|]; [|discriminate]. cbn [bind] in EI.
    unfold build in EI. destruct (map_result (field_value T W L M d) (field_names L M)) as [fs|]; [|discriminate]. cbn [bind] in EI.
    cbn [do_acts do_act bind] in EI. unfold adapt in EI. cbn [eqs String.eqb Ascii.eqb Bool.eqb bind start o_root set_own] in EI.
    cbn in EI.
    match type of EI with do_acts _ _ _ _ _ ?o1 _ = _ => apply (do_acts_shaped W L c kw nm al o1 o) in EI; [exact EI| |exact B5] end.
    cbn [o_root set_root]. eexists. split; [reflexivity|]. rewrite (dget_dset _ eqs_eq), eqs_refl, NMV. reflexivity. }
  pose proof (flatten_ok T W L c kw nm ch [] kw F FL A0 B6 EN) as H. unfold fit in H. rewrite forallb_app.
  destruct (forallb (given kw) (f_need F)); cbn [andb] in *; [|exact H].
  destruct (existsb (given kw) (f_bad F)); cbn [negb andb] in *; [rewrite andb_false_r; exact H|]. rewrite andb_true_r.
  destruct H as (kw' & A & H). pose proof (entity_ok T W L c kw nm (f_base F) kw' se need _ vn vq A SB VN VQ AC B3) as X.
  destruct (forallb (given kw) need); [|rewrite H, X; reflexivity]. destruct X as (d & D1 & D2 & D3). exists d. split; [exact D1|]. split; [exact D2|].
  rewrite H, D3, NMV. destruct (is_none nm); [reflexivity|]. destruct (model_of L c []) as [M|]; [|reflexivity]. cbn [bind].
  destruct (build T W L M d) as [root|]; [|reflexivity]. cbn [bind]. rewrite <- do_acts_app. reflexivity.
Qed.

(** ** Last writes *)
Variable nm : tree.
Definition hits_field (f : string) (x : act) : bool := match act_field L c x with Some (Some g) => eqs g f | _ => false end.
Definition next_mode (m : option sv) (x : act) : option sv := match x with AMode v => Some v | _ => m end.
(** The last act that writes a field, and the mode it runs in. *)
Fixpoint last_write (f : string) (m : option sv) (l : list act) : option (option sv * act) :=
  match l with
  | [] => None
  | x :: r =>
    match last_write f (next_mode m x) r with
    | Some y => Some y
    | None => if hits_field f x then Some (m, x) else None
    end
  end.
Definition in_mode (m : option sv) (md : mode) : Prop :=
  match m with None => md = MNone | Some v => to_mode W (sval W kw nm v) = Ok md end.
Definition plain_act (x : act) : bool := match act_field L c x with Some _ => true | None => false end.
Lemma do_act_mode o x o' m : in_mode m (o_mode o) -> do_act W L c kw nm o x = Ok o' -> in_mode (next_mode m x) (o_mode o').
Proof.
  intros M H. destruct x as [a v|a v|a v|f v|p t|v]; cbn [do_act next_mode] in *.
  - destruct (assign L (verify W) c (o_mode o) (o_root o) a (sval W kw nm v)) as [t' [e|]]; [discriminate|]. injection H as <-. exact M.
  - destruct (adapt W a (sval W kw nm v)); [|discriminate]. cbn [bind] in H. destruct (store _ _ _); [|discriminate]. injection H as <-. exact M.
  - injection H as <-. exact M.
  - destruct (store _ _ _); [|discriminate]. injection H as <-. exact M.
  - injection H as <-. exact M.
  - destruct (to_mode W (sval W kw nm v)) eqn:E; [|discriminate]. injection H as <-. exact E.
Qed.
Theorem last_write_ok f l m o o' fs : forallb plain_act l = true -> in_mode m (o_mode o) -> o_root o = TModel fs ->
  do_acts W L c kw nm o l = Ok o' ->
  exists fs', o_root o' = TModel fs' /\
    match last_write f m l with
    | Some (m', x) => exists md w, in_mode m' md /\ lands W L c kw nm md x w /\ dget eqs fs' f = Some w
    | None => dget eqs fs' f = dget eqs fs f
    end.
Proof.
  revert m o fs. induction l as [|x l IH]; intros m o fs N M R H; cbn [do_acts last_write forallb] in *.
  - injection H as <-. exists fs. auto.
  - apply andb_prop in N. destruct N as (N1 & N2). destruct (do_act W L c kw nm o x) as [o1|] eqn:D; [|discriminate]. cbn [bind] in H.
    unfold plain_act in N1. destruct (act_field L c x) as [g|] eqn:A; [|discriminate].
    pose proof (do_act_root W L c kw nm o x o1 fs g R A D) as E. pose proof (do_act_mode o x o1 m M D) as M1.
    assert (exists fs1, o_root o1 = TModel fs1 /\ (hits_field f x = true -> exists w, lands W L c kw nm (o_mode o) x w /\ dget eqs fs1 f = Some w) /\
              (hits_field f x = false -> dget eqs fs1 f = dget eqs fs f)) as (fs1 & R1 & X1 & X2).
    { unfold hits_field. rewrite A. destruct g as [g|].
      - destruct E as (w & -> & Lw). exists (dset eqs fs g w). split; [reflexivity|]. split; intros X.
        + apply eqs_eq in X. subst g. exists w. split; [exact Lw|]. rewrite (dget_dset _ eqs_eq), eqs_refl. reflexivity.
        + rewrite (dget_dset _ eqs_eq). rewrite X. reflexivity.
      - rewrite E, R. exists fs. split; [reflexivity|]. split; [discriminate|reflexivity]. }
    destruct (IH (next_mode m x) o1 fs1 N2 M1 R1 H) as (fs' & R' & Y). exists fs'. split; [exact R'|].
    destruct (last_write f (next_mode m x) l) as [(m' & y)|]; [exact Y|]. destruct (hits_field f x).
    + destruct (X1 eq_refl) as (w & Lw & G). exists (o_mode o), w. rewrite Y. auto.
    + rewrite Y. auto.
Qed.

(** ** Modes, places, attributes of the object itself *)
Theorem last_mode_ok l m o o' : in_mode m (o_mode o) -> do_acts W L c kw nm o l = Ok o' -> in_mode (fold_left next_mode l m) (o_mode o').
Proof.
  revert m o. induction l as [|x l IH]; intros m o M H; cbn [do_acts fold_left] in *; [injection H as <-; exact M|].
  destruct (do_act W L c kw nm o x) as [o1|] eqn:D; [|discriminate]. exact (IH _ o1 (do_act_mode _ _ _ _ M D) H).
Qed.
Definition next_place (p : option (sv * sv)) (x : act) : option (sv * sv) := match x with APlace a b => Some (a, b) | _ => p end.
Definition in_place (p : option (sv * sv)) (q : bool * tree) : Prop :=
  match p with Some (a, b) => q = place_of (sval W kw nm a) (sval W kw nm b) | None => True end.
Theorem last_place_ok l p o o' : in_place p (o_place o) -> do_acts W L c kw nm o l = Ok o' -> in_place (fold_left next_place l p) (o_place o').
Proof.
  revert p o. induction l as [|x l IH]; intros p o M H; cbn [do_acts fold_left] in *; [injection H as <-; exact M|].
  destruct (do_act W L c kw nm o x) as [o1|] eqn:D; [|discriminate]. cbn [bind] in H. refine (IH _ o1 _ H). clear IH H.
  destruct x as [a v|a v|a v|f v|q t|v]; cbn [do_act next_place] in *.
  - destruct (assign L (verify W) c (o_mode o) (o_root o) a (sval W kw nm v)) as [t' [e|]]; [discriminate|]. injection D as <-. exact M.
  - destruct (adapt W a (sval W kw nm v)); [|discriminate]. cbn [bind] in D. destruct (store _ _ _); [|discriminate]. injection D as <-. exact M.
  - injection D as <-. exact M.
  - destruct (store _ _ _); [|discriminate]. injection D as <-. exact M.
  - injection D as <-. reflexivity.
  - destruct (to_mode W (sval W kw nm v)) eqn:E; [|discriminate]. injection D as <-. exact M.
Qed.
Definition next_own (a : string) (p : option sv) (x : act) : option sv := match x with AKeep b v => if eqs b a then Some v else p | _ => p end.
Definition owns (a : string) (p : option sv) (o : obj) : Prop := dget eqs (o_own o) a = option_map (sval W kw nm) p.
Theorem last_own_ok a l p o o' : owns a p o -> do_acts W L c kw nm o l = Ok o' -> owns a (fold_left (next_own a) l p) o'.
Proof.
  revert p o. induction l as [|x l IH]; intros p o M H; cbn [do_acts fold_left] in *; [injection H as <-; exact M|].
  destruct (do_act W L c kw nm o x) as [o1|] eqn:D; [|discriminate]. cbn [bind] in H. refine (IH _ o1 _ H). clear IH H. unfold owns in *.
  destruct x as [b v|b v|b v|f v|q t|v]; cbn [do_act next_own] in *.
  - destruct (assign L (verify W) c (o_mode o) (o_root o) b (sval W kw nm v)) as [t' [e|]]; [discriminate|]. injection D as <-. exact M.
  - destruct (adapt W b (sval W kw nm v)); [|discriminate]. cbn [bind] in D. destruct (store _ _ _); [|discriminate]. injection D as <-. exact M.
  - injection D as <-. cbn [o_own set_own]. rewrite (dget_dset _ eqs_eq). destruct (eqs b a); [reflexivity|exact M].
  - destruct (store _ _ _); [|discriminate]. injection D as <-. exact M.
  - injection D as <-. exact M.
  - destruct (to_mode W (sval W kw nm v)) eqn:E; [|discriminate]. injection D as <-. exact M.
Qed.

(** ** The model that is built *)
Lemma fields_get d M fs fs' f : map_result (field_value T W L M d) fs = Ok fs' ->
  match dget eqs fs' f with
  | Some w => In f fs /\ match value_for T L M d f with Some v => convert W M f v = Ok w | None => w = fresh W M f end
  | None => ~ In f fs
  end.
Proof.
  revert fs'. induction fs as [|g fs IH]; intros fs' H; cbn [map_result] in H; [injection H as <-; cbn; auto|].
  unfold field_value in H at 1.
  destruct (match value_for T L M d g with Some v => convert W M g v | None => Ok (fresh W M g) end) as [w|] eqn:V; [|discriminate]. cbn [bind] in H.
  destruct (map_result (field_value T W L M d) fs) as [r|]; [|discriminate]. cbn [bind] in H. injection H as <-. cbn [dget].
  destruct (eqs g f) eqn:E.
  - apply eqs_eq in E. subst g. split; [left; reflexivity|]. destruct (value_for T L M d f); [exact V|injection V as <-; reflexivity].
  - specialize (IH r eq_refl). destruct (dget eqs r f).
    + split; [right; apply IH|apply IH].
    + intros [->|I]; [rewrite eqs_refl in E; discriminate|contradiction].
Qed.
Theorem build_get d M root k : build T W L M d = Ok root -> (forall k v, In (k, v) d -> exists u, dget eqs d k = Some u) ->
  exists fs, root = TModel fs /\
    if mem k (field_names L M) then
      exists w, dget eqs fs k = Some w /\ match value_for T L M d k with Some v => convert W M k v = Ok w | None => w = fresh W M k end
    else dget eqs fs k = if claimed T L M k then None else dget eqs d k.
Proof.
  unfold build. destruct (map_result (field_value T W L M d) (field_names L M)) as [fs|] eqn:E; [|discriminate]. intros H ID. injection H as <-.
  eexists. split; [reflexivity|]. rewrite dget_app'. pose proof (fields_get d M _ _ k E) as G. destruct (mem k (field_names L M)) eqn:Mm.
  - apply mem_in in Mm. destruct (dget eqs fs k) as [w|]; [|contradiction]. exists w. split; [reflexivity|apply G].
  - destruct (dget eqs fs k) as [w|]; [destruct G as (G & _); apply mem_in in G; congruence|].
    rewrite (dget_filter (fun k => negb (claimed T L M k))). destruct (claimed T L M k); reflexivity.
Qed.
End Plan.
