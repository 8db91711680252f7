(** C77: what validation reports about whole blueprints and books, and what it leaves behind. *)
From Coq Require Import ZArith QArith String List Bool.
From Verif Require Import Common Assign_Model Report_Model Report_Spec Report_Claims_Proofs Report_Proofs.
Import ListNotations.

(** ** What is reported *)
(** Nothing, and nothing changes, if validation is switched off. *)
Theorem C77_off : forall {B T O E W} (C : checker B T O E W) s, validate C MNone false s = (s, Ok empty_report).
Proof. exact @switched_off. Qed.
Print Assumptions C77_off.
(** Else everything that is said about the sheet itself, the lists of entities, every entity at
    any depth and every tile, in this order, errors and warnings apart. *)
Theorem C77_report : forall {B T O E W} (C : checker B T O E W) m force s a, skipped m force = false ->
  (snd (validate C m force s) = Ok a <-> told C m (course s) a).
Proof. exact @validate_report. Qed.
Print Assumptions C77_report.
(** An exception other than a failed validation comes out exactly if something raises it before
    anything else raises. *)
Theorem C77_raises : forall {B T O E W} (C : checker B T O E W) m force s x, skipped m force = false ->
  (snd (validate C m force s) = Err x <-> broken C m (course s) x).
Proof. exact @validate_raises. Qed.
Print Assumptions C77_raises.
(** The same for single entities and groups. *)
Theorem C77_part : forall {B T O E W} (C : checker B T O E W) m force (p : part B T) a, skipped m force = false ->
  (snd (validate_part C m force p) = Ok a <-> told C m (tour p) a).
Proof. exact @part_report. Qed.
Print Assumptions C77_part.
Theorem C77_part_raises : forall {B T O E W} (C : checker B T O E W) m force (p : part B T) x, skipped m force = false ->
  (snd (validate_part C m force p) = Err x <-> broken C m (tour p) x).
Proof. exact @part_raises. Qed.
Print Assumptions C77_part_raises.
(** Nothing said about an entity is lost, however deep in groups and books it is, and
    nothing said about a tile of a blueprint. *)
Theorem C77_every_entity : forall {B T O E W} (C : checker B T O E W) m force s a r es ws, skipped m force = false ->
  snd (validate C m force s) = Ok a -> contains r s -> spoken (ck_entity C m r) es ws ->
  incl es (errors a) /\ incl ws (warnings a).
Proof. exact @every_entity. Qed.
Print Assumptions C77_every_entity.
Theorem C77_every_tile : forall {B T O E W} (C : checker B T O E W) m force s a t es ws, skipped m force = false ->
  snd (validate C m force s) = Ok a -> paved t s -> spoken (ck_tile C m t) es ws ->
  incl es (errors a) /\ incl ws (warnings a).
Proof. exact @every_tile. Qed.
Print Assumptions C77_every_tile.
(** If a mode says at least as much about every part, it says so about the whole. *)
Theorem C77_stricter : forall {B T O E W} (C : checker B T O E W) m m' force s a a',
  skipped m force = false -> skipped m' force = false ->
  (forall l v v', In l (course s) -> says C m l v -> says C m' l v' -> incl (fst v) (fst v') /\ incl (snd v) (snd v')) ->
  snd (validate C m force s) = Ok a -> snd (validate C m' force s) = Ok a' ->
  incl (errors a) (errors a') /\ incl (warnings a) (warnings a').
Proof. exact @stricter. Qed.
Print Assumptions C77_stricter.

(** ** Raising what was reported *)
(** Nothing is raised exactly if every part passes; then all warnings are issued in order. *)
Theorem C77_clean : forall {B T O E W} (C : checker B T O E W) m force s a, skipped m force = false ->
  snd (validate C m force s) = Ok a -> (fst (reissue_all a) = None <-> Forall (passes C m) (course s)).
Proof. exact @reissue_silent. Qed.
Print Assumptions C77_clean.
Theorem C77_warned : forall {B T O E W} (C : checker B T O E W) m force s a, skipped m force = false ->
  snd (validate C m force s) = Ok a -> fst (reissue_all a) = None ->
  exists wss, Forall2 (fun l ws => says C m l ([], ws)) (course s) wss /\ snd (reissue_all a) = List.concat wss.
Proof. exact @reissue_warns. Qed.
Print Assumptions C77_warned.
(** Else the error of the first part that fails is raised, and no warning is issued. *)
Theorem C77_first : forall {B T O E W} (C : checker B T O E W) m force s a e, skipped m force = false ->
  snd (validate C m force s) = Ok a -> fst (reissue_all a) = Some e ->
  snd (reissue_all a) = [] /\
  exists before l after ws, course s = before ++ l :: after /\ Forall (passes C m) before /\ says C m l ([e], ws).
Proof. exact @reissue_first. Qed.
Print Assumptions C77_first.

(** ** Reports as values *)
Theorem C77_combined : forall {E W} (a : report E W) b, iadd a b =
  match b with Some b => Ok (Build_report (errors a ++ errors b) (warnings a ++ warnings b)) | None => Err TypeError end.
Proof. exact @iadd_spec. Qed.
Print Assumptions C77_combined.
Theorem C77_equal : forall {M A} (te : M -> M -> bool) (ae : A -> A -> bool),
  (forall x y, te x y = true <-> x = y) -> (forall x y, ae x y = true <-> x = y) ->
  forall a b, eq_report te ae a b = true <-> a = b.
Proof. exact @eq_report_spec. Qed.
Print Assumptions C77_equal.

(** ** The object afterwards *)
(** Members, ids, tiles, positions, directions and orientations stay, whatever happens. *)
Theorem C77_places : forall {B T O E W} (C : checker B T O E W) m force s,
  alike same_place (fun _ _ => True) s (fst (validate C m force s)).
Proof. exact @places_kept. Qed.
Print Assumptions C77_places.
(** The fields of an entity are the converted ones exactly if they were accepted, else untouched. *)
Theorem C77_fields : forall {B T O E W} (C : checker B T O E W) m force s s' a, skipped m force = false ->
  validate C m force s = (s', Ok a) -> alike (became C m) (rebound C m) s s'.
Proof. exact @fields_after. Qed.
Print Assumptions C77_fields.
(** Validating twice reports the same and changes nothing more, if conversion settles. *)
Theorem C77_twice : forall {B T O E W} (C : checker B T O E W) m force s s' a, settled C m ->
  validate C m force s = (s', Ok a) -> validate C m force s' = (s', Ok a).
Proof. exact @validate_twice. Qed.
Print Assumptions C77_twice.

(** ** What does not hold *)
(** Tiles of groups are never looked at. *)
Theorem C77_group_tiles : forall {B T O E W} (C : checker B T O E W) m force p,
  snd (validate_part C m force (bare p)) = snd (validate_part C m force p).
Proof. exact @bare_report. Qed.
Print Assumptions C77_group_tiles.
Theorem C77_group_tiles_refuted : exists (s s' : sheet Z Z Z) a a',
  s = Blueprint 0%Z [Grp None [] [(-5)%Z]] [] /\ s' = Blueprint 0%Z [Grp None [] []] [(-5)%Z] /\
  snd (validate toy MStrict false s) = Ok a /\ snd (validate toy MStrict false s') = Ok a' /\
  errors a = [] /\ errors a' = [(-5)%Z].
Proof. exact group_tiles_counter. Qed.
Print Assumptions C77_group_tiles_refuted.
(** A blueprint that fails to validate may have been changed, with errors reported or raised. *)
Theorem C77_unchanged_refuted : exists (s s' : sheet Z Z Z) a,
  s = Blueprint 0%Z [Ent None (at_place 250); Ent None (at_place (-3))] [] /\
  validate toy MStrict false s = (s', Ok a) /\ errors a <> [] /\ s' <> s.
Proof. exact partly_counter. Qed.
Print Assumptions C77_unchanged_refuted.
Theorem C77_halfway_refuted : exists (s s' : sheet Z Z Z),
  s = Blueprint 0%Z [Ent None (at_place 250); Ent None (at_place 13)] [] /\
  validate toy MStrict false s = (s', Err KeyError) /\ s' <> s.
Proof. exact halfway_counter. Qed.
Print Assumptions C77_halfway_refuted.

(** ** Examples *)
Definition shelf_of_plans : sheet Z Z Z :=
  Book 250%Z [Blueprint 1%Z [Ent (Some (str "a")) (at_place 300); Grp (Some (str "a")) [Ent (Some (str "a")) (at_place (-7))] [(-5)%Z]] [(-2)%Z; 400%Z];
              Planner (-8)%Z].
Example C77_example_report : validate toy MStrict false shelf_of_plans =
  (Book 100%Z [Blueprint 1%Z [Ent (Some (str "a")) (at_place 100); Grp (Some (str "a")) [Ent (Some (str "a")) (at_place (-7))] [(-5)%Z]] [(-2)%Z; 400%Z];
               Planner (-8)%Z],
   Ok (Build_report [-1000; -7; -2; -8]%Z [250; 300; -7; -2; 400; -8]%Z)).
Proof. reflexivity. Qed.
Example C77_example_forced : snd (validate toy MNone true shelf_of_plans) = Ok (Build_report [-1000; -7; -2; -8]%Z [250; -2; 400; -8]%Z).
Proof. reflexivity. Qed.
Example C77_example_reissue : reissue_all (Build_report [-1000; -7]%Z [250]%Z) = (Some (-1000)%Z, []) /\
  reissue_all (Build_report ([] : list Z) [250; 3]%Z) = (None, [250; 3]%Z).
Proof. split; reflexivity. Qed.
Example C77_example_twice : settled calm MStrict /\ exists s a, errors a <> [] /\ warnings a <> [] /\
  validate calm MStrict false (Blueprint 0%Z [Ent None (at_place 250); Ent None (at_place (-3))] []) = (s, Ok a).
Proof. split; [apply calm_settled|]. do 2 eexists. split; [|split; [|reflexivity]]; discriminate. Qed.
