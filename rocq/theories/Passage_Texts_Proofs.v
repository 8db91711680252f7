(** C94: strings that hold texts, and what [Blueprint(init)] takes. *)
From Coq Require Import ZArith NArith String List Bool.
From Verif Require Import Common Dict Codec_Model Trim_Model Document_Model Passage_Model.
Import ListNotations.
Local Open Scope string_scope.
Local Open Scope list_scope.

Lemma begins_inv : forall p s, begins p s = true -> exists c, s = p ++ c.
Proof.
  induction p as [|x p IH]; intros s H; [exists s; reflexivity|].
  destruct s as [|y s]; [discriminate|]. cbn in H. apply andb_prop in H. destruct H as [E H].
  apply N.eqb_eq in E. subst y. destruct (IH s H) as [c ->]. exists c. reflexivity.
Qed.
Lemma within_inv : forall p s, within p s = true -> exists a c, s = a ++ p ++ c.
Proof.
  intros p. induction s as [|y s IH]; intros H; cbn [within] in H; apply orb_prop in H; destruct H as [H|H].
  - destruct (begins_inv p [] H) as [c E]. exists [], c. exact E.
  - discriminate.
  - destruct (begins_inv p (y :: s) H) as [c E]. exists [], c. exact E.
  - destruct (IH H) as [a [c ->]]. exists (y :: a), c. reflexivity.
Qed.
Lemma not_within : forall p s, (forall a c, s <> a ++ p ++ c) -> within p s = false.
Proof.
  intros p s H. destruct (within p s) eqn:W; [|reflexivity]. exfalso.
  destruct (within_inv p s W) as [a [c E]]. exact (H a c E).
Qed.

Lemma texts : forall (L : lib) (N : numbers L) rebuild current base s t,
  parse L N s = Ok (VStr t) ->
  (forall k a c, In k (map str ["blueprint"; "deconstruction_planner"; "upgrade_planner"; "blueprint_book"]) -> t <> a ++ k ++ c) ->
  load_from_string L N rebuild current base s = Err (match t with [] => StopIteration | _ => IncorrectBlueprintTypeError end) /\
  get_blueprintable_from_string L N rebuild current base s = Err AttributeError.
Proof.
  intros L N rebuild current base s t P H.
  assert (W : forall k, In k (map str ["blueprint"; "deconstruction_planner"; "upgrade_planner"; "blueprint_book"]) -> within k t = false).
  { intros k K. apply not_within. intros a c. exact (H k a c K). }
  unfold load_from_string, get_blueprintable_from_string. rewrite P. cbn [bind member].
  rewrite (W (str "blueprint")) by (left; reflexivity).
  rewrite (W (str "deconstruction_planner")) by (right; left; reflexivity).
  rewrite (W (str "upgrade_planner")) by (right; right; left; reflexivity).
  rewrite (W (str "blueprint_book")) by (right; right; right; left; reflexivity).
  cbn [bind]. split; [destruct t; reflexivity|reflexivity].
Qed.

Lemma inits : forall (L : lib) (N : numbers L) rebuild current base,
  blueprint_of L N rebuild current base VNone = from_dict rebuild current base [(str "blueprint", VMap [])] /\
  (forall s, blueprint_of L N rebuild current base (VStr s) = load_from_string L N rebuild current base s) /\
  (forall v, v <> VNone -> (forall s, v <> VStr s) -> (forall d, v <> VMap d) ->
     blueprint_of L N rebuild current base v = Err DataFormatError).
Proof.
  intros L N rebuild current base. split; [reflexivity|]. split; [reflexivity|].
  intros v A B C. destruct v; try reflexivity.
  - contradiction A; reflexivity.
  - exfalso. exact (B _ eq_refl).
  - exfalso. exact (C _ eq_refl).
Qed.
