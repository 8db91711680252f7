(** C79: the dictionary of a whole blueprint. *)
From Coq Require Import ZArith NArith QArith String List Bool.
From Verif Require Import Common Dict Trim_Model Wires_Model Wires_Spec Document_Model Document_Spec Document_Proofs Document_Claims_Proofs
  Document_Read_Proofs Document_Witness_Proofs.
Import ListNotations.
Local Open Scope string_scope.
Local Open Scope list_scope.

(** What the dictionary says: the attributes, unless left out; every entity of the
    blueprint and its groups in order, numbered from 1, at its place in the world
    less the origin of the grid, saying what it says itself; the tiles; the
    schedules with the numbers of their locomotives; each wire once; nothing else. *)
Theorem C79_shown : forall veq en ed b doc, to_dict veq en ed b = Ok doc -> shown veq en ed b doc.
Proof. exact to_dict_shown. Qed.
Print Assumptions C79_shown.

(** Nothing but the links can fail (see C23), whatever is to be left out. *)
Theorem C79_fails : forall veq en ed b e,
  to_dict veq en ed b = Err e <-> export veq (coll_of b) (map sc_locos (b_scheds b)) = Err e.
Proof. exact to_dict_fails. Qed.
Print Assumptions C79_fails.

(** What is to be left out does not concern entities, tiles, schedules and wires. *)
Theorem C79_flags : forall veq en ed en' ed' b doc, to_dict veq en ed b = Ok doc -> exists doc' body body',
  to_dict veq en' ed' b = Ok doc' /\ get doc (str "blueprint") = Some (VMap body) /\ get doc' (str "blueprint") = Some (VMap body') /\
  forall k, In k (map str ["entities"; "tiles"; "schedules"; "wires"]) -> get body' k = get body k.
Proof. exact to_dict_flags. Qed.
Print Assumptions C79_flags.

(** A dictionary that was written can be read, and gives the same blueprint with
    entities and tiles moved by the origin and groups dissolved. *)
Theorem C79_roundtrip : forall rebuild current base veq en ed b doc, readable rebuild b -> to_dict veq en ed b = Ok doc ->
  exists b', from_dict rebuild current base doc = Ok b' /\ read_as en ed current base b b'.
Proof. exact round_trip. Qed.
Print Assumptions C79_roundtrip.

(** A dictionary without a blueprint, or with something else than a dictionary
    in its place, is refused. *)
Theorem C79_missing : forall rebuild current base doc,
  (get doc (str "blueprint") = None -> from_dict rebuild current base doc = Err KeyError) /\
  (forall v, get doc (str "blueprint") = Some v -> (forall d, v <> VMap d) -> from_dict rebuild current base doc = Err TypeError).
Proof.
  intros rebuild current base doc. unfold from_dict, item. split.
  - intros ->. reflexivity.
  - intros v -> H. destruct v; try reflexivity. exfalso. exact (H _ eq_refl).
Qed.
Print Assumptions C79_missing.

(** Wires and locomotives then lead to the new entities at the same places. *)
Theorem C79_links : forall rebuild current base veq en ed b doc b' fl inner, readable rebuild b -> to_dict veq en ed b = Ok doc ->
  from_dict rebuild current base doc = Ok b' ->
  flat (c_ents (coll_of b)) fl -> flat_wires (c_ents (coll_of b)) inner -> distinct veq fl ->
  attached_to fl (b_wires b ++ inner) ->
  (forall s y, In s (b_scheds b) -> In (WRef (Some y)) (sc_locos s) -> In y fl) ->
  (exists all, Forall2 (moved fl (c_ents (coll_of b'))) (b_wires b ++ inner) all /\ deduped all (b_wires b')) /\
  Forall2 (Forall2 (moved_end fl (c_ents (coll_of b')))) (map sc_locos (b_scheds b)) (map sc_locos (b_scheds b')).
Proof. exact links_kept. Qed.
Print Assumptions C79_links.

(** Written again it gives the same dictionary, if there is a version and the flag
    for absolute snapping is set. *)
Theorem C79_again : forall rebuild current base veq veq' en ed b doc l b', readable rebuild b -> to_dict veq en ed b = Ok doc ->
  from_dict rebuild current base doc = Ok b' ->
  spread 0 0 (b_parts b) l -> distinct veq' (seq base (List.length l)) ->
  (b_version b <> VNone \/ (en = false /\ ed = false)) -> (b_absolute b <> None \/ en = false \/ ed = true) ->
  to_dict veq' en ed b' = Ok doc.
Proof. exact write_again. Qed.
Print Assumptions C79_again.

(** Not so without a version, which becomes the current one, *)
Theorem C79_version_refuted : exists b doc b' doc', readable keep b /\ b_version b = VNone /\
  to_dict Nat.eqb true true b = Ok doc /\ from_dict keep two 0 doc = Ok b' /\ b_version b' = two /\
  to_dict Nat.eqb true true b' = Ok doc' /\ doc' <> doc.
Proof. exact version_lost. Qed.
Print Assumptions C79_version_refuted.
(** and without the flag, which becomes True. *)
Theorem C79_absolute_refuted : exists b doc b' doc', readable keep b /\ b_absolute b = None /\
  to_dict Nat.eqb true false b = Ok doc /\ from_dict keep two 0 doc = Ok b' /\ b_absolute b' = Some true /\
  to_dict Nat.eqb true false b' = Ok doc' /\ doc' <> doc.
Proof. exact absolute_lost. Qed.
Print Assumptions C79_absolute_refuted.
(** The origin is lost, *)
Theorem C79_origin_refuted : exists b doc b', readable keep b /\ b_origin b = (3, 4)%Z /\ to_dict Nat.eqb true true b = Ok doc /\
  from_dict keep two 0 doc = Ok b' /\ b_origin b' = (0, 0)%Z /\
  exists i x y body x' y' body', b_parts b = [Ent i x y body] /\ b_parts b' = [Ent 0 x' y' body'] /\ (x' == x - 3)%Q /\ (y' == y - 4)%Q.
Proof. exact origin_lost. Qed.
Print Assumptions C79_origin_refuted.
(** and so are the tiles of groups, whatever they are. *)
Theorem C79_group_tiles : forall veq en ed b i x y ws kids ids tiles tiles' ps qs,
  b_parts b = ps ++ Grp i x y ws kids ids tiles :: qs ->
  to_dict veq en ed b =
  to_dict veq en ed (mkSheet (b_label b) (b_color b) (b_description b) (b_icons b) (b_version b) (b_size b) (b_origin b) (b_absolute b)
    (b_relative b) (ps ++ Grp i x y ws kids ids tiles' :: qs) (b_ids b) (b_tiles b) (b_scheds b) (b_wires b) (b_stock b) (b_index b)).
Proof. exact group_tiles. Qed.
Print Assumptions C79_group_tiles.
Theorem C79_group_tiles_refuted : exists b, (exists x y ws kids ids t tiles, In (Grp 1 x y ws kids ids (t :: tiles)) (b_parts b)) /\
  exists doc body, to_dict Nat.eqb true true b = Ok doc /\ get doc (str "blueprint") = Some (VMap body) /\ get body (str "tiles") = None.
Proof. exact group_tiles_lost. Qed.
Print Assumptions C79_group_tiles_refuted.

Example C79_example_dict : exists doc body, to_dict Nat.eqb true true belts = Ok doc /\ get doc (str "blueprint") = Some (VMap body) /\
  get body (str "wires") = Some (VSeq [VSeq [VInt 1; VInt 1; VInt 2; VInt 2]]) /\
  get body (str "schedules") = Some (VSeq [VMap [(str "locomotives", VSeq [VInt 2])]]) /\
  get body (str "absolute-snapping") = Some (VBool false) /\ get body (str "stock_connections") = None /\
  get doc (str "index") = Some (VInt 4).
Proof. do 2 eexists. split; [vm_compute; reflexivity|]. split; [vm_compute; reflexivity|]. vm_compute. repeat split; reflexivity. Qed.
Example C79_example_back : exists doc b', to_dict Nat.eqb true true belts = Ok doc /\ from_dict keep two 10 doc = Ok b' /\
  b_wires b' = [(WRef (Some 10%nat), 1%Z, WRef (Some 11%nat), 2%Z)] /\ map sc_locos (b_scheds b') = [[WRef (Some 11%nat)]] /\
  b_tiles b' = [mkTile (VStr (str "concrete")) 4 6] /\ to_dict Nat.eqb true true b' = Ok doc.
Proof. do 2 eexists. split; [vm_compute; reflexivity|]. split; [vm_compute; reflexivity|]. repeat split; vm_compute; reflexivity. Qed.
