(** Proofs about reading the dictionary of a blueprint. *)
From Coq Require Import ZArith NArith QArith String List Bool Lia.
From Verif Require Import Common Dict Trim_Model Trim_Proofs Wires_Model Wires_Spec Wires_Proofs Wires_Export_Proofs
  Wires_More_Proofs Document_Model Document_Spec Document_Proofs Document_Claims_Proofs.
Import ListNotations.
Local Open Scope string_scope.
Local Open Scope list_scope.

Lemma set_commute : forall (d : dict) k v k' w u, pystr_eqb k' k = false -> set (set (set d k v) k' w) k u = set (set d k u) k' w.
Proof.
  intros d k v k' w u NE. assert (NE' : pystr_eqb k k' = false).
  { destruct (pystr_eqb k k') eqn:E; [|reflexivity]. apply pystr_eqb_eq in E. subst. rewrite pystr_eqb_refl in NE. discriminate. }
  unfold set. induction d as [|[k0 x] d IH]; cbn.
  - rewrite NE'. cbn. rewrite pystr_eqb_refl. reflexivity.
  - destruct (pystr_eqb k0 k) eqn:E; cbn.
    + apply pystr_eqb_eq in E. subst k0. rewrite NE'. cbn. rewrite pystr_eqb_refl. reflexivity.
    + destruct (pystr_eqb k0 k') eqn:E'; cbn; rewrite E.
      * f_equal. clear. induction d as [|[k0 x] d IH]; cbn; [rewrite pystr_eqb_refl; reflexivity|].
        destruct (pystr_eqb k0 k) eqn:E; cbn; rewrite E; [reflexivity|]. f_equal. exact IH.
      * f_equal. exact IH.
Qed.
Definition at_place (o : Z * Z) (e : Q * Q * dict) : val :=
  vector (VFloat (fst (fst e) - inject_Z (fst o))) (VFloat (snd (fst e) - inject_Z (snd o))).
Lemma placed_simple : forall o n e, placed o n e = set (set (snd e) (str "position") (at_place o e)) (str "entity_number") (VInt n).
Proof. intros. unfold placed. rewrite set_commute by reflexivity. reflexivity. Qed.

Section Read.
  Variables (rebuild : dict -> result dict) (current : val).

  Definition kept (e : Q * Q * dict) : Prop := forall x y, get (snd e) (str "entity_number") = None /\
    keeps rebuild (set (snd e) (str "position") (vector (VFloat x) (VFloat y))).
  Definition reread (o : Z * Z) (i : nat) (e : Q * Q * dict) (p : part) : Prop :=
    exists body, p = Ent i (fst (fst e) - inject_Z (fst o)) (snd (fst e) - inject_Z (snd o)) body /\
      forall v, set body (str "position") v = set (snd e) (str "position") v.
  Inductive reread_all (o : Z * Z) : nat -> list (Q * Q * dict) -> list part -> Prop :=
  | ra_nil i : reread_all o i [] []
  | ra_cons i e p l ps : reread o i e p -> reread_all o (S i) l ps -> reread_all o i (e :: l) (p :: ps).
  Lemma read_one : forall o i n e, kept e -> exists p, read_entity rebuild i (VMap (placed o n e)) = Ok p /\ reread o i e p.
  Proof.
    intros o i n e K. rewrite placed_simple. unfold read_entity, item. cbn [as_map bind]. rewrite !get_set. keys. cbn [bind].
    unfold at_place at 1. unfold point, vector, item. cbn [as_map bind]. rewrite !get_cons. keys. cbn [bind as_num fst snd].
    destruct (K (fst (fst e) - inject_Z (fst o))%Q (snd (fst e) - inject_Z (snd o))%Q) as (NN & d' & R & S).
    rewrite del_new by (rewrite get_set; keys; exact NN). unfold at_place. rewrite R. cbn [bind].
    eexists. split; [reflexivity|]. eexists. split; [reflexivity|]. intro v. rewrite S. apply set_set.
  Qed.
  Lemma read_all : forall o l i n, Forall kept l -> exists ps, read_entities rebuild i (map VMap (placed_all o n l)) = Ok ps /\ reread_all o i l ps.
  Proof.
    intros o. induction l as [|e l IH]; intros i n F; [exists []; split; [reflexivity|constructor]|].
    inversion F as [|? ? K F']; subst. cbn [placed_all map read_entities].
    destruct (read_one o i n e K) as (p & -> & R). cbn [bind]. destruct (IH (S i) (n + 1)%Z F') as (ps & -> & RS). cbn [bind].
    eexists. split; [reflexivity|]. constructor; assumption.
  Qed.
  Lemma reread_entities : forall o i l ps, reread_all o i l ps -> entities_read o i l ps.
  Proof.
    intros o i l ps H. induction H as [|i e p l ps (body & -> & S) H IH]; constructor; [|exact IH].
    do 3 eexists. split; [reflexivity|]. split; [reflexivity|]. split; [reflexivity|]. intros k NE.
    pose proof (f_equal (fun d => get d k) (S VNone)) as G. cbn beta in G. rewrite !get_set in G.
    destruct (pystr_eqb (str "position") k) eqn:E; [apply pystr_eqb_eq in E; congruence|exact G].
  Qed.
  Lemma reread_shape : forall o i l ps, reread_all o i l ps -> map Document_Model.shape ps = map Leaf (seq i (List.length l)).
  Proof.
    intros o i l ps H. induction H as [|i e p l ps (body & -> & _) H IH]; [reflexivity|]. cbn. f_equal. exact IH.
  Qed.
  Lemma minus_zero : forall q, (q - inject_Z 0)%Q = q.
  Proof. intros [a d]. unfold Qminus, Qplus, Qopp, inject_Z. cbn. f_equal; lia. Qed.
  Lemma reread_placed : forall o i l ps, reread_all o i l ps -> forall n, placed_all (0, 0)%Z n (flat_parts ps) = placed_all o n l.
  Proof.
    intros o i l ps H. induction H as [|i e p l ps (body & -> & S) H IH]; intro n; [reflexivity|].
    cbn [flat_parts flat_map flat_part global app]. cbn [placed_all]. f_equal; [|apply IH].
    rewrite !placed_simple. unfold at_place. cbn [fst snd]. rewrite !minus_zero, S. reflexivity.
  Qed.

  Lemma read_tiles : forall o ts, mapM read_tile (map VMap (map (fun t => tile_dict (moved_tile o t)) ts)) = Ok (map (moved_tile o) ts).
  Proof. intros o. induction ts as [|t ts IH]; [reflexivity|]. cbn [map mapM]. rewrite IH. reflexivity. Qed.
  Lemma ints_back : forall ns, mapM as_int (map VInt ns) = Ok ns.
  Proof. induction ns as [|n ns IH]; [reflexivity|]. cbn. rewrite IH. reflexivity. Qed.
  Lemma read_sched_back : forall ns s, read_sched (VMap (sched_dict ns s)) = Ok (ns, sc_rest s).
  Proof.
    intros ns s. unfold read_sched, sched_dict, keyword. cbn [as_map bind]. rewrite get_cons. keys. cbn [listing as_seq bind].
    rewrite ints_back. reflexivity.
  Qed.
  Lemma read_scheds : forall c, mapM read_sched (map (fun p => VMap (sched_dict (fst p) (snd p))) c) =
    Ok (map (fun p => (fst p, sc_rest (snd p))) c).
  Proof. induction c as [|p c IH]; [reflexivity|]. cbn [map mapM]. rewrite read_sched_back, IH. reflexivity. Qed.
  Lemma read_links : forall ws, mapM read_link (map wire_val ws) = Ok (map read_wire ws).
  Proof. induction ws as [|[[[a s] b] t] ws IH]; [reflexivity|]. cbn [map mapM]. rewrite IH. reflexivity. Qed.

  Lemma nonempty_listing : forall l dv, (dv = VNone \/ dv = VSeq []) ->
    listing (match nonempty (Some (VSeq l)) with Some v => v | None => dv end) = Ok l.
  Proof. intros [|v l] dv [-> | ->]; reflexivity. Qed.
  Lemma grid_back : forall p, grid (match zero_gone (Some (ints p)) with Some v => v | None => VNone end) = Ok p.
  Proof.
    intros [a b]. unfold zero_gone. destruct (py_eq _ _) eqn:E; [apply zero_ints in E; rewrite E; reflexivity|reflexivity].
  Qed.
  Lemma field_back : forall en ed k v, match get (field en ed k VNone v) k with Some w => w | None => VNone end = v.
  Proof.
    intros. rewrite get_field, pystr_eqb_refl. destruct (en && is_none v) eqn:A; cbn [orb].
    - apply andb_true_iff in A. destruct A as [_ A]. destruct v; try discriminate. reflexivity.
    - destruct (ed && py_eq v VNone) eqn:B; [|reflexivity]. apply andb_true_iff in B. destruct B as [_ B]. symmetry. apply py_eq_none. exact B.
  Qed.
  Lemma version_back : forall en ed k v, match get (field en ed k VNone v) k with Some w => w | None => current end =
    match v with VNone => if en || ed then current else VNone | v => v end.
  Proof.
    intros. rewrite get_field, pystr_eqb_refl. destruct v; cbn [is_none py_eq]; rewrite ?andb_false_r, ?andb_true_r; cbn [orb];
      try (destruct (ed && _) eqn:B; [apply andb_true_iff in B; destruct B as [_ B]; discriminate B|reflexivity]); try reflexivity.
    destruct en, ed; reflexivity.
  Qed.
  Lemma flag_back : forall en ed k f,
    read_flag (match get (field en ed k (VBool true) (flag f)) k with Some w => w | None => VBool true end) =
    Ok (match f with None => if en then Some true else None | f => f end).
  Proof. intros. rewrite get_field, pystr_eqb_refl. destruct f as [[]|], en, ed; reflexivity. Qed.
  Lemma stock_back : forall en ed k l,
    listing (match get (field en ed k (VSeq []) (VSeq l)) k with Some w => w | None => VNone end) = Ok l.
  Proof.
    intros. rewrite get_field, pystr_eqb_refl. cbn [is_none]. rewrite andb_false_r. cbn [orb].
    destruct (ed && py_eq (VSeq l) (VSeq [])) eqn:E; [|reflexivity]. apply andb_true_iff in E. destruct E as [_ E].
    destruct l; [reflexivity|discriminate].
  Qed.

  Definition read_back (en ed : bool) (b : sheet) (x : exported) (ps : list part) (c : coll) (ss : list (list wend)) : sheet :=
    {| b_label := b_label b; b_color := b_color b; b_description := b_description b; b_icons := b_icons b;
       b_version := match b_version b with VNone => if en || ed then current else VNone | v => v end;
       b_size := b_size b; b_origin := (0, 0)%Z;
       b_absolute := match b_absolute b with None => if en then Some true else None | f => f end;
       b_relative := b_relative b; b_parts := ps; b_ids := []; b_tiles := map (moved_tile (b_origin b)) (b_tiles b);
       b_scheds := map (fun p => mkSched (fst p) (snd (snd p)))
         (combine ss (map (fun p => (fst p, sc_rest (snd p))) (combine (x_scheds x) (b_scheds b))));
       b_wires := c_wires c; b_stock := b_stock b; b_index := b_index b |}.

  Lemma from_dict_of : forall base en ed b x, Forall kept (flat_parts (b_parts b)) -> List.length (x_scheds x) = List.length (b_scheds b) ->
    exists ps, reread_all (b_origin b) base (flat_parts (b_parts b)) ps /\
    from_dict rebuild current base (doc_of en ed b x) =
    match import (map Document_Model.shape ps) [] (map (map WInt) (x_scheds x)) (map read_wire (x_wires x)) with
    | Ok (c, ss) => Ok (read_back en ed b x ps c ss)
    | Err e => Err e
    end.
  Proof.
    intros base en ed b x K L. destruct (read_all (b_origin b) (flat_parts (b_parts b)) base 1 K) as (ps & R & RA).
    exists ps. split; [exact RA|]. unfold from_dict, item, doc_of. rewrite get_cons. keys. cbn [bind as_map].
    unfold keyword. pose proof (dump_nodup en ed b) as N.
    unfold body_of. rewrite !(get_assemble _ _ _ _ _ _ N). keys. rewrite !dump_get. keys.
    rewrite !grid_back, flag_back, !nonempty_listing by auto. cbn [bind].
    rewrite R. cbn [bind]. rewrite read_tiles. cbn [bind]. unfold sched_vals. rewrite read_scheds. cbn [bind].
    rewrite read_links. cbn [bind]. rewrite stock_back. cbn [bind].
    replace (map (fun s : list Z * dict => map WInt (fst s)) (map (fun p => (fst p, sc_rest (snd p))) (combine (x_scheds x) (b_scheds b))))
      with (map (map WInt) (x_scheds x)).
    2: { rewrite map_map. cbn [fst]. rewrite <- (map_map fst (map WInt)). f_equal. clear -L. revert L.
         generalize (b_scheds b). induction (x_scheds x) as [|n l IH]; intros [|s k] L; cbn in *; try discriminate; [reflexivity|].
         f_equal. apply IH. lia. }
    destruct (import _ _ _ _) as [[c ss]|e]; [|reflexivity]. cbn [bind fst snd].
    rewrite !field_back, version_back. rewrite get_cons. keys. rewrite field_back. unfold read_back. f_equal. f_equal; [destruct (b_version b)|destruct (b_absolute b)]; reflexivity.
  Qed.
End Read.

Lemma moved_scheds : forall ss (x : list (list Z)) (sc : list sched), List.length ss = List.length x -> List.length x = List.length sc ->
  map sc_locos (map (fun p : list wend * (list Z * dict) => mkSched (fst p) (snd (snd p)))
    (combine ss (map (fun p : list Z * sched => (fst p, sc_rest (snd p))) (combine x sc)))) = ss /\
  map sc_rest (map (fun p : list wend * (list Z * dict) => mkSched (fst p) (snd (snd p)))
    (combine ss (map (fun p : list Z * sched => (fst p, sc_rest (snd p))) (combine x sc)))) = map sc_rest sc.
Proof.
  induction ss as [|s ss IH]; intros [|n x] [|c sc] L1 L2; cbn in *; try discriminate; [auto|].
  destruct (IH x sc) as [A B]; [lia|lia|]. split; f_equal; assumption.
Qed.
Lemma sched_dicts_back : forall ss (x : list (list Z)) (sc : list sched), List.length ss = List.length x -> List.length x = List.length sc ->
  map (fun p => VMap (sched_dict (fst p) (snd p))) (combine x
    (map (fun p : list wend * (list Z * dict) => mkSched (fst p) (snd (snd p)))
      (combine ss (map (fun p : list Z * sched => (fst p, sc_rest (snd p))) (combine x sc))))) =
  map (fun p => VMap (sched_dict (fst p) (snd p))) (combine x sc).
Proof.
  induction ss as [|s ss IH]; intros [|n x] [|c sc] L1 L2; cbn in *; try discriminate; [reflexivity|].
  f_equal. apply IH; lia.
Qed.
Lemma F2_length : forall {A B} (R : A -> B -> Prop) l k, Forall2 R l k -> List.length l = List.length k.
Proof. intros A B R l k H. induction H; cbn; congruence. Qed.
Lemma import_shape : forall ents ids ss ws c ss', import ents ids ss ws = Ok (c, ss') ->
  c_ents c = ents /\ c_ids c = ids /\ List.length ss' = List.length ss.
Proof.
  intros ents ids ss ws c ss'. unfold import. destruct (mapM (mapM (attach ents)) ss) as [r|] eqn:E; [|discriminate]. cbn [bind].
  destruct (mapM (attach_wire ents) ws) as [w|]; [|discriminate]. cbn [bind]. intro H. injection H as <- <-.
  split; [reflexivity|]. split; [reflexivity|]. apply mapM_ok in E. symmetry. exact (F2_length _ _ _ E).
Qed.
Lemma number_range : forall veq fl x n, number_is veq fl x n -> (1 <= n <= Z.of_nat (List.length fl))%Z.
Proof. intros veq fl x n (pre & y & post & -> & -> & _). rewrite app_length. cbn [List.length]. lia. Qed.
Lemma exported_valid : forall veq b x, exported_of veq b = Ok x ->
  (forall n, (exists outs, In outs (x_scheds x) /\ In n outs) \/ (exists w, In w (x_wires x) /\ (n = fst (fst (fst w)) \/ n = snd (fst w))) ->
     (1 <= n <= Z.of_nat (List.length (flatten (c_ents (coll_of b)))))%Z) /\
  Forall (fun outs => outs <> []) (x_scheds x) /\ NoDup (x_wires x) /\ List.length (x_scheds x) = List.length (b_scheds b).
Proof.
  intros veq b x E. apply export_iff in E. destruct E as (fl & inner & all & F & W & NUM & S & WW & D).
  apply flat_unique in F. subst fl. set (fl := flatten (c_ents (coll_of b))) in *. split; [|split; [|split]].
  - intros n [(outs & I & J)|(w & I & J)].
    + clear -S I J. induction S as [|locos out ss so [_ H] S IH]; [destruct I|]. destruct I as [<-|I]; [|apply IH; exact I].
      clear -H J. induction H as [|e m locos out (y & _ & N) H IH]; [destruct J|]. destruct J as [<-|J]; [|apply IH; exact J].
      eapply number_range. exact N.
    + assert (I' : In w all).
      { clear -D I. induction D as [|l d y D IH N|l d y D IH N]; [destruct I| |]; rewrite in_app_iff in *; [|left; apply IH; exact I].
        destruct I as [I|I]; [left; apply IH; exact I|right; exact I]. }
      clear -WW I' J. induction WW as [|v u ws all H WW IH]; [destruct I'|]. destruct I' as [<-|I']; [|apply IH; exact I'].
      destruct H as ((y1 & _ & N1) & _ & (y2 & _ & N2) & _). destruct J as [-> | ->]; eapply number_range; eassumption.
  - clear -S. induction S as [|locos out ss so [NE H] S IH]; constructor; [|exact IH]. intros ->. inversion H. subst. contradiction.
  - exact (deduped_nodup _ _ D).
  - apply F2_length in S. rewrite map_length in S. symmetry. exact S.
Qed.
Lemma leaves_flat : forall p parent, List.length (leaves (Document_Model.shape p)) = List.length (flat_part parent p).
Proof.
  induction p as [i x y body|i x y ws kids ids tiles IH] using part_ind'; intro parent; [reflexivity|].
  cbn [Document_Model.shape leaves flat_part]. generalize (Some (global parent x y)). intro g.
  induction IH as [|k kids Hk IH IHk]; [reflexivity|]. cbn. rewrite !app_length. f_equal; [apply Hk|exact IHk].
Qed.
Lemma flat_length : forall b, List.length (flatten (c_ents (coll_of b))) = List.length (flat_parts (b_parts b)).
Proof.
  intro b. unfold coll_of, flat_parts, flatten. cbn [c_ents]. induction (b_parts b) as [|p ps IH]; [reflexivity|].
  cbn. rewrite !app_length, (leaves_flat p None). f_equal. exact IH.
Qed.
Lemma spread_length : forall ox oy ps l, spread ox oy ps l -> forall l', spread ox oy ps l' -> List.length l = List.length l'.
Proof.
  intros ox oy ps l H. induction H as [|ox oy i x y body X Y ps l HX HY H IH|ox oy i x y ws kids ids tiles k ps l Hk IHk H IH]; intros l' G; inversion G; subst; cbn.
  - reflexivity.
  - f_equal. auto.
  - rewrite !app_length. f_equal; auto.
Qed.

Lemma readable_kept : forall rebuild b, readable rebuild b -> Forall (kept rebuild) (flat_parts (b_parts b)).
Proof.
  intros rebuild b H. apply Forall_forall. intros e I x y. exact (H _ e x y (flat_parts_spread (b_parts b)) I).
Qed.
Lemma distinct_new : forall base n, distinct Nat.eqb (seq base n).
Proof. intros base n. split; [apply seq_NoDup|]. intros x y _ _ E. apply Nat.eqb_eq. exact E. Qed.

(** Reading what was written. *)
Lemma read_written : forall rebuild current base veq en ed b doc, readable rebuild b -> to_dict veq en ed b = Ok doc ->
  exists x ps c ss, exported_of veq b = Ok x /\ doc = doc_of en ed b x /\
    reread_all (b_origin b) base (flat_parts (b_parts b)) ps /\
    import (map Leaf (seq base (List.length (flat_parts (b_parts b))))) [] (map (map WInt) (x_scheds x)) (map read_wire (x_wires x)) = Ok (c, ss) /\
    from_dict rebuild current base doc = Ok (read_back current en ed b x ps c ss).
Proof.
  intros rebuild current base veq en ed b doc K. rewrite to_dict_of. destruct (exported_of veq b) as [x|e] eqn:E; [|discriminate].
  intro H. injection H as <-. destruct (exported_valid veq b x E) as (V & NE & ND & L).
  destruct (from_dict_of rebuild current base en ed b x (readable_kept _ _ K) L) as (ps & RA & F).
  rewrite (reread_shape _ _ _ _ RA) in F.
  destruct (reexport Nat.eqb (seq base (List.length (flat_parts (b_parts b)))) [] (x_scheds x) (x_wires x)) as (c & ss & ents & I & _).
  { apply distinct_new. }
  { intros n Hn. rewrite seq_length, <- flat_length. exact (V n Hn). }
  { exact NE. }
  { exact ND. }
  rewrite I in F. exists x, ps, c, ss. split; [reflexivity|]. split; [reflexivity|]. split; [exact RA|]. split; [exact I|exact F].
Qed.
Lemma round_trip : forall rebuild current base veq en ed b doc, readable rebuild b -> to_dict veq en ed b = Ok doc ->
  exists b', from_dict rebuild current base doc = Ok b' /\ read_as en ed current base b b'.
Proof.
  intros rebuild current base veq en ed b doc K H.
  destruct (read_written rebuild current base veq en ed b doc K H) as (x & ps & c & ss & E & _ & RA & I & F).
  eexists. split; [exact F|]. unfold read_as, read_back. cbn [b_label b_color b_description b_icons b_version b_size b_origin b_absolute b_relative b_parts b_tiles b_scheds b_stock b_index].
  destruct (exported_valid veq b x E) as (_ & _ & _ & L). apply import_shape in I. destruct I as (_ & _ & LS). rewrite map_length in LS.
  repeat split; try reflexivity.
  - exists (flat_parts (b_parts b)). split; [apply flat_parts_spread|]. apply (reread_entities). exact RA.
  - apply moved_scheds; assumption.
Qed.
Lemma links_kept : forall rebuild current base veq en ed b doc b' fl inner, readable rebuild b -> to_dict veq en ed b = Ok doc ->
  from_dict rebuild current base doc = Ok b' ->
  flat (c_ents (coll_of b)) fl -> flat_wires (c_ents (coll_of b)) inner -> distinct veq fl ->
  attached_to fl (b_wires b ++ inner) ->
  (forall s y, In s (b_scheds b) -> In (WRef (Some y)) (sc_locos s) -> In y fl) ->
  (exists all, Forall2 (moved fl (c_ents (coll_of b'))) (b_wires b ++ inner) all /\ deduped all (b_wires b')) /\
  Forall2 (Forall2 (moved_end fl (c_ents (coll_of b')))) (map sc_locos (b_scheds b)) (map sc_locos (b_scheds b')).
Proof.
  intros rebuild current base veq en ed b doc b' fl inner K H FD FL FW D AT LO.
  destruct (read_written rebuild current base veq en ed b doc K H) as (x & ps & c & ss & E & _ & RA & I & F).
  rewrite F in FD. injection FD as <-. destruct (exported_valid veq b x E) as (_ & _ & _ & L).
  pose proof (import_shape _ _ _ _ _ _ I) as (CE & CI & LS). rewrite map_length in LS.
  destruct (roundtrip veq (coll_of b) (map sc_locos (b_scheds b)) x fl inner (map Leaf (seq base (List.length (flat_parts (b_parts b))))) []) as (c' & ss' & I' & _ & W & S); auto.
  { intros locos y IL. apply in_map_iff in IL. destruct IL as (s & <- & IS). exact (LO s y IS). }
  { rewrite map_length, seq_length, <- flat_length. apply flat_unique in FL. rewrite FL. reflexivity. }
  { rewrite map_map. cbn. rewrite map_id. apply seq_NoDup. }
  rewrite I in I'. injection I' as <- <-.
  assert (X : c_ents (coll_of (read_back current en ed b x ps c ss)) = map Leaf (seq base (List.length (flat_parts (b_parts b)))))
    by (exact (reread_shape _ _ _ _ RA)).
  rewrite X. split; [exact W|]. unfold read_back. cbn [b_scheds]. rewrite (proj1 (moved_scheds ss (x_scheds x) (b_scheds b) LS L)). exact S.
Qed.
Lemma write_again : forall rebuild current base veq veq' en ed b doc l b', readable rebuild b -> to_dict veq en ed b = Ok doc ->
  from_dict rebuild current base doc = Ok b' ->
  spread 0 0 (b_parts b) l -> distinct veq' (seq base (List.length l)) ->
  (b_version b <> VNone \/ (en = false /\ ed = false)) -> (b_absolute b <> None \/ en = false \/ ed = true) ->
  to_dict veq' en ed b' = Ok doc.
Proof.
  intros rebuild current base veq veq' en ed b doc l b' K H FD SP D VN AN.
  destruct (read_written rebuild current base veq en ed b doc K H) as (x & ps & c & ss & E & -> & RA & I & F).
  rewrite F in FD. injection FD as <-. destruct (exported_valid veq b x E) as (V & NE & ND & L).
  pose proof (import_shape _ _ _ _ _ _ I) as (CE & CI & LS). rewrite map_length in LS.
  rewrite (spread_length _ _ _ _ SP _ (flat_parts_spread (b_parts b))) in D.
  destruct (reexport veq' (seq base (List.length (flat_parts (b_parts b)))) [] (x_scheds x) (x_wires x)) as (c' & ss' & ents & I' & X & _); auto.
  { intros n Hn. rewrite seq_length, <- flat_length. exact (V n Hn). }
  rewrite I in I'. injection I' as <- <-. rewrite to_dict_of. unfold exported_of.
  set (b' := read_back current en ed b x ps c ss).
  assert (CO : coll_of b' = c).
  { unfold b', coll_of, read_back. cbn [b_parts b_ids b_wires]. rewrite (reread_shape _ _ _ _ RA).
    destruct c as [ce ci cw]. cbn in *. congruence. }
  assert (LO : map sc_locos (b_scheds b') = ss) by exact (proj1 (moved_scheds ss (x_scheds x) (b_scheds b) LS L)).
  rewrite CO, LO, X. f_equal. unfold doc_of. f_equal. f_equal. f_equal. unfold body_of. cbn [x_wires].
  replace (dump en ed b') with (dump en ed b).
  2: { unfold dump, b', read_back. cbn [b_label b_color b_description b_icons b_version b_size b_absolute b_relative b_stock].
       f_equal. f_equal. f_equal. f_equal. f_equal. f_equal.
       - destruct VN as [VN|[-> ->]]; destruct (b_version b); try reflexivity. contradiction.
       - f_equal. f_equal. destruct AN as [AN|[->| ->]]; destruct (b_absolute b) as [[]|]; try reflexivity; try contradiction.
         destruct en; reflexivity. }
  f_equal.
  - change (b_origin b') with (0, 0)%Z. change (b_parts b') with ps. rewrite (reread_placed _ _ _ _ RA). reflexivity.
  - f_equal. change (b_origin b') with (0, 0)%Z. change (b_tiles b') with (map (moved_tile (b_origin b)) (b_tiles b)). rewrite map_map.
    apply map_ext. intros [n tx ty]. unfold moved_tile. cbn [t_name t_x t_y fst snd]. rewrite !Z.sub_0_r. reflexivity.
  - unfold sched_vals. cbn [x_scheds]. exact (sched_dicts_back ss (x_scheds x) (b_scheds b) LS L).
Qed.
