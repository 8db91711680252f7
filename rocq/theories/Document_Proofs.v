(** Proofs about the dictionary of a blueprint. *)
From Coq Require Import ZArith NArith QArith String List Bool Lia.
From Verif Require Import Common Dict Trim_Model Trim_Proofs Wires_Model Wires_Spec Wires_Proofs Wires_Export_Proofs
  Wires_More_Proofs Document_Model Document_Spec.
Import ListNotations.
Local Open Scope string_scope.
Local Open Scope list_scope.

(** ** Dictionaries *)
Lemma eqb_spec_str : forall a b, pystr_eqb a b = true <-> a = b.
Proof. exact pystr_eqb_eq. Qed.
Lemma get_set : forall (d : dict) k v k', get (set d k v) k' = if pystr_eqb k k' then Some v else get d k'.
Proof. intros. unfold get, set. apply dget_dset. exact pystr_eqb_eq. Qed.
Lemma get_del : forall (d : dict) k k', NoDup (map fst d) -> get (del d k) k' = if pystr_eqb k k' then None else get d k'.
Proof. intros. unfold get, del. apply dget_ddel; [exact pystr_eqb_eq|assumption]. Qed.
Lemma set_nodup : forall (d : dict) k v, NoDup (map fst d) -> NoDup (map fst (set d k v)).
Proof. intros d k v H. apply (dset_wf pystr_eqb pystr_eqb_eq); exact H. Qed.
Lemma del_nodup : forall (d : dict) k, NoDup (map fst d) -> NoDup (map fst (del d k)).
Proof. intros d k H. apply (ddel_wf pystr_eqb); exact H. Qed.
Lemma set_set : forall (d : dict) k v w, set (set d k v) k w = set d k w.
Proof.
  intros d k v w. unfold set. induction d as [|[k0 u] d IH]; cbn.
  - rewrite pystr_eqb_refl. reflexivity.
  - destruct (pystr_eqb k0 k) eqn:E; cbn; rewrite E; [reflexivity|]. f_equal. exact IH.
Qed.
Lemma del_new : forall (d : dict) k v, get d k = None -> del (set d k v) k = d.
Proof.
  intros d k v. unfold get, set, del. induction d as [|[k0 u] d IH]; cbn.
  - rewrite pystr_eqb_refl. reflexivity.
  - destruct (pystr_eqb k0 k) eqn:E; [discriminate|]. cbn. rewrite E. intro H. f_equal. exact (IH H).
Qed.
Lemma get_cons : forall k v (d : dict) k', get ((k, v) :: d) k' = if pystr_eqb k k' then Some v else get d k'.
Proof. reflexivity. Qed.

Ltac keys := repeat match goal with
  | |- context[pystr_eqb (str ?a) (str ?b)] => let r := eval vm_compute in (pystr_eqb (str a) (str b)) in
      change (pystr_eqb (str a) (str b)) with r
  end; cbv iota.

(** ** Positions *)
Lemma part_ind' : forall P : part -> Prop,
  (forall i x y body, P (Ent i x y body)) ->
  (forall i x y ws kids ids tiles, Forall P kids -> P (Grp i x y ws kids ids tiles)) -> forall p, P p.
Proof.
  intros P HE HG. fix IH 1. intros [i x y body|i x y ws kids ids tiles]; [apply HE|]. apply HG.
  induction kids as [|k kids IHk]; constructor; [apply IH|exact IHk].
Qed.
Lemma spread_eq : forall ox oy ps l, spread ox oy ps l -> forall ox' oy', (ox == ox')%Q -> (oy == oy')%Q -> spread ox' oy' ps l.
Proof.
  intros ox oy ps l H. induction H as [|ox oy i x y body X Y ps l HX HY H IH|ox oy i x y ws kids ids tiles k ps l Hk IHk H IH];
    intros ox' oy' Ex Ey.
  - constructor.
  - constructor; [rewrite HX, Ex; reflexivity|rewrite HY, Ey; reflexivity|apply IH; assumption].
  - constructor; [apply IHk; [rewrite Ex; reflexivity|rewrite Ey; reflexivity]|apply IH; assumption].
Qed.
Lemma spread_app : forall ox oy ps l, spread ox oy ps l -> forall qs m, spread ox oy qs m -> spread ox oy (ps ++ qs) (l ++ m).
Proof.
  intros ox oy ps l H. induction H as [|ox oy i x y body X Y ps l HX HY H IH|ox oy i x y ws kids ids tiles k ps l Hk IHk H IH]; intros qs m G; cbn.
  - exact G.
  - constructor; auto.
  - rewrite <- app_assoc. constructor; auto.
Qed.
Definition origin_of (parent : option (Q * Q)) : Q * Q := match parent with Some p => p | None => (0, 0)%Q end.
Lemma global_origin : forall parent x y,
  (fst (global parent x y) == fst (origin_of parent) + x)%Q /\ (snd (global parent x y) == snd (origin_of parent) + y)%Q.
Proof. intros [[px py]|] x y; cbn; split; ring. Qed.
Lemma flat_part_spread : forall p parent, spread (fst (origin_of parent)) (snd (origin_of parent)) [p] (flat_part parent p).
Proof.
  induction p as [i x y body|i x y ws kids ids tiles IH] using part_ind'; intro parent; destruct (global_origin parent x y) as [GX GY].
  - cbn [flat_part]. destruct (global parent x y) as [X Y]. constructor; [exact GX|exact GY|constructor].
  - cbn [flat_part]. rewrite <- app_nil_r. constructor; [|constructor].
    apply spread_eq with (fst (global parent x y)) (snd (global parent x y)); [|exact GX|exact GY].
    set (g := global parent x y). clearbody g. clear GX GY. induction IH as [|k kids Hk IH IHk]; cbn; [constructor|].
    change (k :: kids) with ([k] ++ kids). apply spread_app; [|exact IHk]. destruct g as [gx gy]. exact (Hk (Some (gx, gy))).
Qed.
Lemma flat_parts_spread : forall ps, spread 0 0 ps (flat_parts ps).
Proof.
  unfold flat_parts. induction ps as [|p ps IH]; cbn; [constructor|].
  change (p :: ps) with ([p] ++ ps). apply spread_app; [exact (flat_part_spread p None)|exact IH].
Qed.

(** ** The entities *)
Lemma shift_entity : forall o e n, exists d, shift o (set (entity_dict e) (str "entity_number") (VInt n)) = Ok d /\
  d = set (set (set (snd e) (str "position") (vector (VFloat (fst (fst e))) (VFloat (snd (fst e))))) (str "entity_number") (VInt n))
    (str "position") (vector (VFloat (fst (fst e) - inject_Z (fst o))) (VFloat (snd (fst e) - inject_Z (snd o)))).
Proof.
  intros o [[x y] body] n. unfold shift, item, entity_dict. cbn [fst snd]. rewrite !get_set. keys.
  cbn [bind as_map vector]. unfold vector. rewrite !get_cons. keys. cbn [bind minus]. rewrite !get_set, !get_cons. keys. cbn [bind minus].
  eexists. split; [reflexivity|]. reflexivity.
Qed.
Definition placed (o : Z * Z) (n : Z) (e : Q * Q * dict) : dict :=
  set (set (set (snd e) (str "position") (vector (VFloat (fst (fst e))) (VFloat (snd (fst e))))) (str "entity_number") (VInt n))
    (str "position") (vector (VFloat (fst (fst e) - inject_Z (fst o))) (VFloat (snd (fst e) - inject_Z (snd o)))).
Fixpoint placed_all (o : Z * Z) (n : Z) (l : list (Q * Q * dict)) : list dict :=
  match l with [] => [] | e :: l => placed o n e :: placed_all o (n + 1) l end.
Lemma shift_all : forall o l n, mapM (shift o) (numbered_dicts n l) = Ok (placed_all o (n + 1) l).
Proof.
  intros o. induction l as [|e l IH]; intro n; [reflexivity|]. cbn [numbered_dicts mapM placed_all].
  destruct (shift_entity o e (n + 1)) as (d & -> & ->). cbn [bind]. rewrite IH. reflexivity.
Qed.
Lemma placed_shown : forall o n e, entity_shown o n e (placed o n e).
Proof.
  intros o n [[x y] body]. unfold placed, entity_shown. cbn [fst snd]. split; [|split].
  - do 2 eexists. rewrite !get_set. keys. split; [reflexivity|]. split; reflexivity.
  - rewrite !get_set. keys. reflexivity.
  - intros k N1 N2. rewrite !get_set.
    destruct (pystr_eqb (str "position") k) eqn:E1; [apply pystr_eqb_eq in E1; congruence|].
    destruct (pystr_eqb (str "entity_number") k) eqn:E2; [apply pystr_eqb_eq in E2; congruence|]. reflexivity.
Qed.
Lemma placed_all_shown : forall o l n, entities_shown o n l (placed_all o n l).
Proof. intros o. induction l as [|e l IH]; intro n; constructor; [apply placed_shown|apply IH]. Qed.

(** ** Tiles *)
Definition moved_tile (o : Z * Z) (t : tile) : tile := mkTile (t_name t) (t_x t - fst o) (t_y t - snd o).
Lemma shift_tiles : forall o ts, mapM (shift o) (map tile_dict ts) = Ok (map (fun t => tile_dict (moved_tile o t)) ts).
Proof.
  intros o. induction ts as [|t ts IH]; [reflexivity|]. cbn [map mapM]. rewrite IH. reflexivity.
Qed.
Lemma tiles_shown : forall o ts, Forall2 (tile_shown o) ts (map (fun t => tile_dict (moved_tile o t)) ts).
Proof. intros o. induction ts as [|t ts IH]; constructor; [reflexivity|exact IH]. Qed.

(** ** The dump *)
Inductive sub {A} : list A -> list A -> Prop :=
| sub_nil : sub [] []
| sub_skip x l k : sub l k -> sub l (x :: k)
| sub_take x l k : sub l k -> sub (x :: l) (x :: k).
Lemma sub_in : forall {A} (l k : list A), sub l k -> forall x, In x l -> In x k.
Proof. intros A l k H. induction H; cbn; intuition. Qed.
Lemma sub_nodup : forall {A} (l k : list A), sub l k -> NoDup k -> NoDup l.
Proof.
  intros A l k H. induction H as [|x l k H IH|x l k H IH]; intro N; [constructor| |]; inversion N; subst; auto.
  constructor; auto. intro I. apply (sub_in _ _ H) in I. contradiction.
Qed.
Lemma sub_field : forall en ed k dv v (d : dict) l, sub (map fst d) l -> sub (map fst (field en ed k dv v ++ d)) (k :: l).
Proof. intros. unfold field. destruct (_ || _); cbn; [apply sub_skip|apply sub_take]; assumption. Qed.
Lemma sub_must : forall k (v : val) (d : dict) l, sub (map fst d) l -> sub (map fst ([(k, v)] ++ d)) (k :: l).
Proof. intros. cbn. apply sub_take. assumption. Qed.
Lemma sub_last : forall en ed k dv v, sub (map fst (field en ed k dv v)) [k].
Proof. intros. unfold field. destruct (_ || _); cbn; [apply sub_skip|apply sub_take]; constructor. Qed.
Lemma dump_keys : forall en ed b, sub (map fst (dump en ed b)) body_keys.
Proof.
  intros en ed b. unfold dump, body_keys. cbn [map].
  repeat first [apply sub_last | apply sub_must | apply sub_field].
Qed.
Lemma body_keys_nodup : NoDup body_keys.
Proof.
  assert (E : (if list_eq_dec (list_eq_dec N.eq_dec) (nodup (list_eq_dec N.eq_dec) body_keys) body_keys then true else false) = true)
    by (vm_compute; reflexivity).
  destruct (list_eq_dec _ _ _) as [H|]; [|discriminate]. rewrite <- H. apply NoDup_nodup.
Qed.
Lemma dump_nodup : forall en ed b, NoDup (map fst (dump en ed b)).
Proof. intros. eapply sub_nodup; [apply dump_keys|apply body_keys_nodup]. Qed.
Lemma get_field : forall en ed k dv v k', get (field en ed k dv v) k' =
  if pystr_eqb k k' then (if (en && is_none v) || (ed && py_eq v dv) then None else Some v) else None.
Proof. intros. unfold field. destruct (_ || _); cbn; destruct (pystr_eqb k k'); reflexivity. Qed.

Lemma get_drop_zero : forall k (d : dict) k', NoDup (map fst d) -> get (drop_zero k d) k' =
  if pystr_eqb k k' then match get d k with Some v => if py_eq v (ints (0, 0)%Z) then None else Some v | None => None end else get d k'.
Proof.
  intros k d k' N. unfold drop_zero. destruct (pystr_eqb k k') eqn:E.
  - apply pystr_eqb_eq in E. subst k'. destruct (get d k) as [v|] eqn:G; [|exact G].
    destruct (py_eq v (ints (0, 0)%Z)); [rewrite get_del by exact N; rewrite pystr_eqb_refl; reflexivity|exact G].
  - destruct (get d k) as [v|]; [|reflexivity]. destruct (py_eq v (ints (0, 0)%Z)); [|reflexivity].
    rewrite get_del by exact N. rewrite E. reflexivity.
Qed.
Lemma drop_zero_nodup : forall k (d : dict), NoDup (map fst d) -> NoDup (map fst (drop_zero k d)).
Proof. intros k d N. unfold drop_zero. destruct (get d k) as [v|]; [|exact N]. destruct (py_eq _ _); [apply del_nodup|]; exact N. Qed.
Definition nonempty (o : option val) : option val := match o with Some (VSeq []) => None | _ => o end.
Lemma get_drop_empty : forall k (d : dict) k', NoDup (map fst d) -> get (drop_empty k d) k' =
  if pystr_eqb k k' then nonempty (get d k) else get d k'.
Proof.
  intros k d k' N. unfold drop_empty, nonempty.
  destruct (pystr_eqb k k') eqn:E.
  - apply pystr_eqb_eq in E. subst k'.
    destruct (get d k) as [[| | | | |[|]| |]|] eqn:G; try exact G. rewrite get_del by exact N. rewrite pystr_eqb_refl. reflexivity.
  - destruct (get d k) as [[| | | | |[|]| |]|]; try reflexivity. rewrite get_del by exact N. rewrite E. reflexivity.
Qed.
Lemma drop_empty_nodup : forall k (d : dict), NoDup (map fst d) -> NoDup (map fst (drop_empty k d)).
Proof.
  intros k d N. unfold drop_empty. destruct (get d k) as [[| | | | |[|]| |]|]; try exact N. apply del_nodup. exact N.
Qed.

Definition assemble (d : dict) (es ts ss ws : list val) : dict :=
  let d := set d (str "entities") (VSeq es) in
  let d := set d (str "tiles") (VSeq ts) in
  let d := set d (str "schedules") (VSeq ss) in
  let d := set d (str "wires") (VSeq ws) in
  let d := drop_zero (str "snap-to-grid") d in
  let d := drop_zero (str "position-relative-to-grid") d in
  let d := drop_empty (str "entities") d in
  let d := drop_empty (str "tiles") d in
  let d := drop_empty (str "schedules") d in
  drop_empty (str "wires") d.
Lemma assemble_nodup : forall d es ts ss ws, NoDup (map fst d) -> NoDup (map fst (assemble d es ts ss ws)).
Proof.
  intros. unfold assemble. repeat apply drop_empty_nodup. repeat apply drop_zero_nodup. repeat apply set_nodup. assumption.
Qed.
Definition zero_gone (o : option val) : option val :=
  match o with Some v => if py_eq v (ints (0, 0)%Z) then None else Some v | None => None end.
Lemma get_assemble : forall d es ts ss ws k, NoDup (map fst d) -> get (assemble d es ts ss ws) k =
  if pystr_eqb (str "wires") k then nonempty (Some (VSeq ws))
  else if pystr_eqb (str "schedules") k then nonempty (Some (VSeq ss))
  else if pystr_eqb (str "tiles") k then nonempty (Some (VSeq ts))
  else if pystr_eqb (str "entities") k then nonempty (Some (VSeq es))
  else if pystr_eqb (str "position-relative-to-grid") k then zero_gone (get d (str "position-relative-to-grid"))
  else if pystr_eqb (str "snap-to-grid") k then zero_gone (get d (str "snap-to-grid"))
  else get d k.
Proof.
  intros d es ts ss ws k N. unfold assemble.
  assert (N1 : forall e t s w, NoDup (map fst (set (set (set (set d (str "entities") e) (str "tiles") t) (str "schedules") s) (str "wires") w)))
    by (intros; repeat apply set_nodup; exact N).
  rewrite get_drop_empty by (repeat first [apply drop_empty_nodup|apply drop_zero_nodup]; apply N1).
  rewrite !get_drop_empty by (repeat first [apply drop_empty_nodup|apply drop_zero_nodup]; apply N1).
  rewrite !get_drop_zero by (repeat first [apply drop_empty_nodup|apply drop_zero_nodup]; apply N1).
  rewrite !get_set. keys.
  destruct (pystr_eqb (str "wires") k) eqn:K1; [reflexivity|].
  destruct (pystr_eqb (str "schedules") k) eqn:K2; [reflexivity|].
  destruct (pystr_eqb (str "tiles") k) eqn:K3; [reflexivity|].
  destruct (pystr_eqb (str "entities") k) eqn:K4; [reflexivity|].
  destruct (pystr_eqb (str "position-relative-to-grid") k) eqn:K5; [reflexivity|].
  destruct (pystr_eqb (str "snap-to-grid") k) eqn:K6; [reflexivity|]. reflexivity.
Qed.
