(** Blueprints whose dictionary does not say everything. *)
From Coq Require Import ZArith NArith QArith String List Bool.
From Verif Require Import Common Dict Trim_Model Wires_Model Wires_Spec Document_Model Document_Spec Document_Proofs Document_Claims_Proofs
  Document_Read_Proofs.
Import ListNotations.
Local Open Scope string_scope.
Local Open Scope list_scope.

Definition named (s : string) : dict := [(str "name", VStr (str s))].
Definition keep (d : dict) : result dict := Ok d.
Definition plain_sheet (version : val) (absolute : option bool) (origin : Z * Z) (parts : list part) : sheet :=
  mkSheet (VStr (str "base")) VNone VNone VNone version (0, 0)%Z origin absolute (0, 0)%Z parts [] [] [] [] [] VNone.
Definition two : val := VInt 562949953421312.
Definition one : val := VInt 281479275937792.

Lemma named_readable : forall b, (forall l e, spread 0 0 (b_parts b) l -> In e l -> get (snd e) (str "entity_number") = None) -> readable keep b.
Proof. intros b H l e x y S I. split; [exact (H l e S I)|]. eexists. split; [reflexivity|]. reflexivity. Qed.
Lemma empty_readable : forall v a o, readable keep (plain_sheet v a o []).
Proof. intros v a o. apply named_readable. intros l e S I. inversion S. subst. destruct I. Qed.

(** The version [None] does not survive. *)
Lemma version_lost : exists b doc b' doc', readable keep b /\ b_version b = VNone /\
  to_dict Nat.eqb true true b = Ok doc /\ from_dict keep two 0 doc = Ok b' /\ b_version b' = two /\
  to_dict Nat.eqb true true b' = Ok doc' /\ doc' <> doc.
Proof.
  exists (plain_sheet VNone (Some true) (0, 0)%Z []). do 3 eexists.
  split; [apply empty_readable|]. split; [reflexivity|]. split; [vm_compute; reflexivity|]. split; [vm_compute; reflexivity|].
  split; [reflexivity|]. split; [vm_compute; reflexivity|]. intro H. discriminate H.
Qed.
(** Absolute snapping [None] does not survive if only nothing is left out. *)
Lemma absolute_lost : exists b doc b' doc', readable keep b /\ b_absolute b = None /\
  to_dict Nat.eqb true false b = Ok doc /\ from_dict keep two 0 doc = Ok b' /\ b_absolute b' = Some true /\
  to_dict Nat.eqb true false b' = Ok doc' /\ doc' <> doc.
Proof.
  exists (plain_sheet two None (0, 0)%Z []). do 3 eexists.
  split; [apply empty_readable|]. split; [reflexivity|]. split; [vm_compute; reflexivity|]. split; [vm_compute; reflexivity|].
  split; [reflexivity|]. split; [vm_compute; reflexivity|]. intro H. discriminate H.
Qed.
(** The tiles of a group are in no dictionary. *)
Lemma group_tiles : forall veq en ed b i x y ws kids ids tiles tiles' ps qs,
  b_parts b = ps ++ Grp i x y ws kids ids tiles :: qs ->
  to_dict veq en ed b =
  to_dict veq en ed (mkSheet (b_label b) (b_color b) (b_description b) (b_icons b) (b_version b) (b_size b) (b_origin b) (b_absolute b)
    (b_relative b) (ps ++ Grp i x y ws kids ids tiles' :: qs) (b_ids b) (b_tiles b) (b_scheds b) (b_wires b) (b_stock b) (b_index b)).
Proof.
  intros veq en ed b i x y ws kids ids tiles tiles' ps qs E. unfold to_dict, dump, flat_parts.
  cbn [b_label b_color b_description b_icons b_version b_size b_origin b_absolute b_relative b_parts b_ids b_tiles b_scheds b_wires b_stock b_index].
  rewrite E. rewrite !map_app, !flat_map_app. reflexivity.
Qed.
Lemma group_tiles_lost : exists b, (exists x y ws kids ids t tiles, In (Grp 1 x y ws kids ids (t :: tiles)) (b_parts b)) /\
  exists doc body, to_dict Nat.eqb true true b = Ok doc /\ get doc (str "blueprint") = Some (VMap body) /\ get body (str "tiles") = None.
Proof.
  exists (plain_sheet two (Some true) (0, 0)%Z [Grp 1 0 0 [] [] [] [mkTile (VStr (str "concrete")) 0 0]]).
  split; [do 7 eexists; left; reflexivity|]. do 2 eexists. split; [vm_compute; reflexivity|]. split; vm_compute; reflexivity.
Qed.
(** The origin of the grid is not kept: it moves everything instead. *)
Lemma origin_lost : exists b doc b', readable keep b /\ b_origin b = (3, 4)%Z /\ to_dict Nat.eqb true true b = Ok doc /\
  from_dict keep two 0 doc = Ok b' /\ b_origin b' = (0, 0)%Z /\
  exists i x y body x' y' body', b_parts b = [Ent i x y body] /\ b_parts b' = [Ent 0 x' y' body'] /\ (x' == x - 3)%Q /\ (y' == y - 4)%Q.
Proof.
  exists (plain_sheet two (Some true) (3, 4)%Z [Ent 7 (1 # 2) (1 # 2) (named "inserter")]). do 2 eexists.
  split. { apply named_readable. intros l e S I. inversion S; subst. match goal with H : spread _ _ [] _ |- _ => inversion H; subst end.
           destruct I as [<-|[]]. reflexivity. }
  split; [reflexivity|]. split; [vm_compute; reflexivity|]. split; [vm_compute; reflexivity|]. split; [reflexivity|].
  do 7 eexists. split; [reflexivity|]. split; [reflexivity|]. split; vm_compute; reflexivity.
Qed.

(** For the examples: two belts, one of them in a group with a wire to the other. *)
Definition belts : sheet :=
  mkSheet (VStr (str "base")) VNone VNone VNone two (2, 2)%Z (1, 0)%Z (Some false) (0, 0)%Z
    [Ent 0 (1 # 2) (1 # 2) (named "transport-belt"); Grp 1 2 0 [] [Ent 2 (1 # 2) (3 # 2) (named "locomotive")] [] []] []
    [mkTile (VStr (str "concrete")) 5 6] [mkSched [WRef (Some 2%nat)] []] [(WRef (Some 0%nat), 1%Z, WRef (Some 2%nat), 2%Z)] [] (VInt 4).
