(** Consequences for users, and a checker for the counterexamples. *)
From Coq Require Import ZArith QArith String List Bool Lia.
From Verif Require Import Common Assign_Model Report_Model Report_Spec Report_Proofs.
Import ListNotations.

Section Claims.
Context {B T O E W : Type} (C : checker B T O E W).

Lemma validate_report : forall m force s a, skipped m force = false ->
  (snd (validate C m force s) = Ok a <-> told C m (course s) a).
Proof. intros m force s a On. apply faithful_ok. apply sheet_faithful. exact On. Qed.
Lemma validate_raises : forall m force s x, skipped m force = false ->
  (snd (validate C m force s) = Err x <-> broken C m (course s) x).
Proof. intros m force s x On. apply faithful_err. apply sheet_faithful. exact On. Qed.
Lemma part_report : forall m force p a, skipped m force = false ->
  (snd (validate_part C m force p) = Ok a <-> told C m (tour p) a).
Proof. intros m force p a On. apply faithful_ok. apply part_faithful. exact On. Qed.
Lemma part_raises : forall m force p x, skipped m force = false ->
  (snd (validate_part C m force p) = Err x <-> broken C m (tour p) x).
Proof. intros m force p x On. apply faithful_err. apply part_faithful. exact On. Qed.

Lemma skipped_spec : forall m force, skipped m force = true <-> m = MNone /\ force = false.
Proof.
  intros m force. unfold skipped. split.
  - intro H. apply andb_true_iff in H. destruct H as [H1 H2]. destruct force; [discriminate|]. destruct m; try discriminate. auto.
  - intros [-> ->]. reflexivity.
Qed.

(** ** Raising and warning *)
Lemma reissue_silent : forall m force s a, skipped m force = false -> snd (validate C m force s) = Ok a ->
  (fst (reissue_all a) = None <-> Forall (passes C m) (course s)).
Proof.
  intros m force s a On H. apply (validate_report _ _ _ _ On) in H. rewrite <- (told_clean C m _ _ H).
  unfold reissue_all. destruct (errors a); split; intro K; try reflexivity; discriminate.
Qed.
Lemma reissue_first : forall m force s a e, skipped m force = false -> snd (validate C m force s) = Ok a ->
  fst (reissue_all a) = Some e ->
  snd (reissue_all a) = [] /\
  exists before l after ws, course s = before ++ l :: after /\ Forall (passes C m) before /\ says C m l ([e], ws).
Proof.
  intros m force s a e On H K. apply (validate_report _ _ _ _ On) in H. unfold reissue_all in *.
  destruct (errors a) as [|e' es] eqn:E0; [discriminate|]. cbn in *. injection K as ->. split; [reflexivity|].
  eapply told_first; eassumption.
Qed.
Lemma reissue_warns : forall m force s a, skipped m force = false -> snd (validate C m force s) = Ok a ->
  fst (reissue_all a) = None ->
  exists wss, Forall2 (fun l ws => says C m l ([], ws)) (course s) wss /\ snd (reissue_all a) = List.concat wss.
Proof.
  intros m force s a On H K. apply (validate_report _ _ _ _ On) in H.
  assert (E0 : errors a = []) by (unfold reissue_all in K; destruct (errors a); [reflexivity|discriminate]).
  unfold reissue_all. rewrite E0. cbn. destruct H as [vs [F [E1 E2]]]. rewrite E0 in E1. rewrite E2. clear E0 E2 K a.
  exists (map snd vs). rewrite <- flat_map_concat_map. split; [|reflexivity].
  revert E1. induction F as [|l [es ws] ls vs Hl F IH]; intro E1; cbn in *; constructor.
  - symmetry in E1. apply app_eq_nil in E1. destruct E1 as [-> _]. exact Hl.
  - apply IH. symmetry in E1. apply app_eq_nil in E1. destruct E1 as [_ E1]. symmetry. exact E1.
Qed.

(** ** Every entity *)
Lemma within_tour : forall r (p : part B T), within r p -> In (LEntity r : look B T O) (tour p).
Proof.
  intros r p H. induction H as [|id xs ts p Hp Hw IH]; [left; reflexivity|]. cbn. right. apply in_flat_map. exists p. split; assumption.
Qed.
Lemma tour_within : forall r (p : part B T), In (LEntity r : look B T O) (tour p) -> within r p.
Proof.
  intro r. apply (part_tree (fun p => In (LEntity r : look B T O) (tour p) -> within r p)).
  - intros id q [H|[]]. injection H as ->. constructor.
  - intros id xs ts F [H|H]; [discriminate|]. apply in_flat_map in H. destruct H as [p [Hp Ht]].
    rewrite Forall_forall in F. econstructor; [exact Hp|]. apply F; assumption.
Qed.
Lemma contains_course : forall r (s : sheet B T O), contains r s <-> In (LEntity r) (course s).
Proof.
  intros r s. split.
  - intro H. induction H as [o xs ts p Hp Hw|o bs s Hs Hc IH]; cbn.
    + right. right. apply in_app_iff. left. apply in_flat_map. exists p. split; [exact Hp|apply within_tour; exact Hw].
    + right. apply in_flat_map. exists s. split; assumption.
  - apply (sheet_tree (fun s => In (LEntity r) (course s) -> contains r s)); clear s.
    + intros o xs ts [H|[H|H]]; try discriminate. apply in_app_iff in H. destruct H as [H|H].
      * apply in_flat_map in H. destruct H as [p [Hp Ht]]. econstructor; [exact Hp|apply tour_within; exact Ht].
      * apply in_map_iff in H. destruct H as [t [H _]]. discriminate.
    + intros o [H|[]]. discriminate.
    + intros o bs F [H|H]; [discriminate|]. apply in_flat_map in H. destruct H as [s [Hs Hc]].
      rewrite Forall_forall in F. econstructor; [exact Hs|]. apply F; assumption.
Qed.
Lemma tour_no_tile : forall t (p : part B T), ~ In (LTile t : look B T O) (tour p).
Proof.
  intro t. apply part_tree.
  - intros id r [H|[]]. discriminate.
  - intros id xs ts F [H|H]; [discriminate|]. apply in_flat_map in H. destruct H as [p [Hp Ht]].
    rewrite Forall_forall in F. exact (F p Hp Ht).
Qed.
Lemma paved_course : forall t (s : sheet B T O), paved t s <-> In (LTile t) (course s).
Proof.
  intros t s. split.
  - intro H. induction H as [o xs ts Ht|o bs s Hs Hc IH]; cbn.
    + right. right. apply in_app_iff. right. apply in_map. exact Ht.
    + right. apply in_flat_map. exists s. split; assumption.
  - apply (sheet_tree (fun s => In (LTile t) (course s) -> paved t s)); clear s.
    + intros o xs ts [H|[H|H]]; try discriminate. apply in_app_iff in H. destruct H as [H|H].
      * apply in_flat_map in H. destruct H as [p [Hp Ht]]. destruct (tour_no_tile _ _ Ht).
      * apply in_map_iff in H. destruct H as [t' [H Ht]]. injection H as ->. constructor. exact Ht.
    + intros o [H|[]]. discriminate.
    + intros o bs F [H|H]; [discriminate|]. apply in_flat_map in H. destruct H as [s [Hs Hc]].
      rewrite Forall_forall in F. econstructor; [exact Hs|]. apply F; assumption.
Qed.
Lemma told_in : forall m ls a l es ws, told C m ls a -> In l ls -> says C m l (es, ws) ->
  incl es (errors a) /\ incl ws (warnings a).
Proof.
  intros m ls a l es ws [vs [F [-> ->]]] Hl Hs. revert Hl. induction F as [|l' v ls vs H F IH]; intro Hl; [destruct Hl|].
  cbn. destruct Hl as [->|Hl].
  - rewrite (says_det C m _ _ _ H Hs). split; [apply incl_appl|apply incl_appl]; apply incl_refl.
  - destruct (IH Hl) as [I1 I2]. split; apply incl_appr; assumption.
Qed.
Lemma every_entity : forall m force s a r es ws, skipped m force = false -> snd (validate C m force s) = Ok a ->
  contains r s -> spoken (ck_entity C m r) es ws -> incl es (errors a) /\ incl ws (warnings a).
Proof.
  intros m force s a r es ws On H Hr Hs. apply (validate_report _ _ _ _ On) in H. apply contains_course in Hr.
  eapply told_in; [exact H|exact Hr|]. constructor. exact Hs.
Qed.
Lemma every_tile : forall m force s a t es ws, skipped m force = false -> snd (validate C m force s) = Ok a ->
  paved t s -> spoken (ck_tile C m t) es ws -> incl es (errors a) /\ incl ws (warnings a).
Proof.
  intros m force s a t es ws On H Hr Hs. apply (validate_report _ _ _ _ On) in H. apply paved_course in Hr.
  eapply told_in; [exact H|exact Hr|]. constructor. exact Hs.
Qed.

(** ** Stricter modes *)
Lemma stricter : forall m m' force s a a', skipped m force = false -> skipped m' force = false ->
  (forall l v v', In l (course s) -> says C m l v -> says C m' l v' -> incl (fst v) (fst v') /\ incl (snd v) (snd v')) ->
  snd (validate C m force s) = Ok a -> snd (validate C m' force s) = Ok a' ->
  incl (errors a) (errors a') /\ incl (warnings a) (warnings a').
Proof.
  intros m m' force s a a' On On' Hm H H'. apply (validate_report _ _ _ _ On) in H. apply (validate_report _ _ _ _ On') in H'.
  destruct H as [vs [F [-> ->]]]. destruct H' as [vs' [F' [-> ->]]]. revert vs' F'.
  induction F as [|l v ls vs Hl F IH]; intros vs' F'; inversion F' as [|? v' ? vs'' Hl' F'']; subst; cbn.
  - split; apply incl_refl.
  - destruct (Hm l v v' (or_introl eq_refl) Hl Hl') as [I1 I2].
    destruct (IH (fun l v v' Hi => Hm l v v' (or_intror Hi)) _ F'') as [J1 J2].
    split; apply incl_app; (apply incl_appl; assumption) || (apply incl_appr; assumption).
Qed.

(** ** The object afterwards *)
Lemma places_kept : forall m force s, alike same_place (fun _ _ => True) s (fst (validate C m force s)).
Proof.
  intros m force s. destruct (skipped m force) eqn:On.
  - apply skipped_spec in On. destruct On as [-> ->]. rewrite sheet_off. apply alike_refl; [apply same_place_refl|intros; exact I].
  - exact (proj1 (sheet_state C m force On s)).
Qed.
Lemma fields_after : forall m force s s' a, skipped m force = false -> validate C m force s = (s', Ok a) ->
  alike (became C m) (rebound C m) s s'.
Proof.
  intros m force s s' a On H. destruct (sheet_state C m force On s) as [_ Q]. rewrite H in Q. exact (Q a eq_refl).
Qed.
Lemma switched_off : forall s, validate C MNone false s = (s, Ok empty_report).
Proof. exact (sheet_off C). Qed.
Lemma switched_off_part : forall p, validate_part C MNone false p = (p, Ok empty_report).
Proof. exact (part_off C). Qed.

(** ** Reports *)
Lemma iadd_spec : forall (a : report E W) b, iadd a b =
  match b with Some b => Ok (Build_report (errors a ++ errors b) (warnings a ++ warnings b)) | None => Err TypeError end.
Proof. intros a [b|]; reflexivity. Qed.
End Claims.

(** ** A checker for examples *)
(** Fields are numbers: negative ones are rejected with a warning, those above 100
    are cut to 100 with a warning, and 13 makes a validator raise KeyError. *)
Definition toy_outcome (z : Z) : outcome Z Z Z :=
  if (z =? 13)%Z then Raised KeyError
  else if (z <? 0)%Z then Rejected z [z]
  else if (100 <? z)%Z then Accepted 100%Z [z] else Accepted z [].
Definition toy_unit (z : Z) : outcome unit Z Z :=
  match toy_outcome z with Accepted _ ws => Accepted tt ws | Rejected e ws => Rejected e ws | Raised x => Raised x end.
Definition toy : checker Z Z Z Z Z := {|
  ck_entity := fun m r => match toy_outcome (body r) with
    | Accepted z ws => Accepted (Build_root z (0, 0)%Q (0, 0)%Z (direction r) None) (if mode_le m MMinimum then [] else ws)
    | Rejected e ws => Rejected e (if mode_le m MMinimum then [] else ws) | Raised x => Raised x end;
  ck_tile := fun _ => toy_unit;
  ck_own := fun _ => toy_unit;
  ck_book := fun _ => toy_outcome;
  same_ids := (-1000)%Z |}.
Definition at_place (z : Z) : root Z := Build_root z (1 # 2, 3 # 2)%Q (0, 1)%Z (Some 4%Z) None.

(** A tile that is reported in a blueprint is not reported in a group of it. *)
Lemma group_tiles_counter : exists (s s' : sheet Z Z Z) a a',
  s = Blueprint 0%Z [Grp None [] [(-5)%Z]] [] /\ s' = Blueprint 0%Z [Grp None [] []] [(-5)%Z] /\
  snd (validate toy MStrict false s) = Ok a /\ snd (validate toy MStrict false s') = Ok a' /\
  errors a = [] /\ errors a' = [(-5)%Z].
Proof. do 4 eexists. repeat split; reflexivity. Qed.
(** A report with errors, and an object that was changed. *)
Lemma partly_counter : exists (s s' : sheet Z Z Z) a,
  s = Blueprint 0%Z [Ent None (at_place 250); Ent None (at_place (-3))] [] /\
  validate toy MStrict false s = (s', Ok a) /\ errors a <> [] /\ s' <> s.
Proof. do 3 eexists. split; [reflexivity|]. split; [reflexivity|]. split; discriminate. Qed.
(** An exception in the middle, and an object that was changed. *)
Lemma halfway_counter : exists (s s' : sheet Z Z Z),
  s = Blueprint 0%Z [Ent None (at_place 250); Ent None (at_place 13)] [] /\
  validate toy MStrict false s = (s', Err KeyError) /\ s' <> s.
Proof. do 2 eexists. split; [reflexivity|]. split; [reflexivity|discriminate]. Qed.
(** A checker whose conversion settles: negative numbers are rejected
    and numbers above 100 are accepted with a warning. *)
Definition calm_outcome (z : Z) : outcome Z Z Z :=
  if (z <? 0)%Z then Rejected z [] else if (100 <? z)%Z then Accepted z [z] else Accepted z [].
Definition calm : checker Z Z Z Z Z := {|
  ck_entity := fun m r => match calm_outcome (body r) with
    | Accepted z ws => Accepted (Build_root z (0, 0)%Q (0, 0)%Z (direction r) (orientation r)) ws
    | Rejected e ws => Rejected e ws | Raised x => Raised x end;
  ck_tile := fun _ => toy_unit;
  ck_own := fun _ => toy_unit;
  ck_book := fun _ => calm_outcome;
  same_ids := (-1000)%Z |}.
Lemma calm_same : forall z z' ws, calm_outcome z = Accepted z' ws -> z' = z.
Proof.
  intros z z' ws. unfold calm_outcome. destruct (z <? 0)%Z; [discriminate|]. destruct (100 <? z)%Z; intro H; injection H; auto.
Qed.
Lemma calm_settled : forall m, settled calm m.
Proof.
  intro m. split.
  - intros r r' r'' ws H Hb Hp Hd Ho. cbn in H. destruct (calm_outcome (body r)) as [z ws'|e ws'|x] eqn:K; try discriminate.
    injection H as <- <-. cbn in *. pose proof (calm_same _ _ _ K) as ->. cbn. rewrite Hb, K.
    eexists. split; [reflexivity|]. cbn. repeat split; auto.
  - intros o o' ws H. cbn in *. pose proof (calm_same _ _ _ H) as ->. exact H.
Qed.
