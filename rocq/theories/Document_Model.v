(** The dictionary of a blueprint, and a blueprint made from one.

    /repo/draftsman/classes/blueprint.py 137-275 ([_normalize_internal_structure];
    the numbering of wires and locomotives is Wires_Model), 1046-1136
    ([Blueprint.to_dict]), 294-420 (the fields and their serializers), 492-630
    ([setup], called by blueprintable.py 89-105 with the data);
    exportable.py 319-334 ([to_dict], pydantic's [model_dump]); entity.py 192-194
    and 537-555, group.py 360-372, tile.py 95-98 (positions); utils.py 811-827.

    Simplifications: values inside the dictionary are those of Trim_Model, already
    dumped; what an entity or schedule dumps besides its position or locomotives
    is a dictionary given with it, and what a constructor makes of such a
    dictionary is the oracle [rebuild]; coordinates are rationals; keywords that
    [setup] does not know are left out (C75), and so is validation.  Fields with a
    serializer of their own are dumped whatever their value is (the defaults of
    pydantic do not apply to them; test/test_blueprint.py 160-184). *)
From Coq Require Import ZArith NArith QArith String List Bool.
From Verif Require Import Common Dict Trim_Model Wires_Model.
Import ListNotations.
Local Open Scope string_scope.
Local Open Scope list_scope.

Definition dict := list (pystr * val).

(** A tile and its position, tile.py 60-98. *)
Record tile := mkTile { t_name : val; t_x : Z; t_y : Z }.

(** An entity or a group; [body] is what the entity dumps, with any position. *)
Inductive part :=
| Ent (i : nat) (x y : Q) (body : dict)
| Grp (i : nat) (x y : Q) (ws : list wire) (kids : list part) (ids : list (pystr * nat)) (tiles : list tile).

(** A schedule; [sc_rest] is what it dumps besides the locomotives. *)
Record sched := mkSched { sc_locos : list wend; sc_rest : dict }.

Record sheet := mkSheet {
  b_label : val; b_color : val; b_description : val; b_icons : val; b_version : val;
  b_size : Z * Z;                 (** [_snap_to_grid] *)
  b_origin : Z * Z;               (** [_snapping_grid_position] *)
  b_absolute : option bool;
  b_relative : Z * Z;             (** [_position_relative_to_grid] *)
  b_parts : list part; b_ids : list (pystr * nat);
  b_tiles : list tile; b_scheds : list sched; b_wires : list wire;
  b_stock : list val;
  b_index : val }.

(** vector.py 112-118 *)
Definition vector (x y : val) : val := VMap [(str "x", x); (str "y", y)].
Definition ints (p : Z * Z) : val := vector (VInt (fst p)) (VInt (snd p)).

(** ** Entities *)
(** What Wires_Model sees. *)
Fixpoint shape (p : part) : tree :=
  match p with
  | Ent i _ _ _ => Leaf i
  | Grp i _ _ ws kids ids _ => Node i ws (map shape kids) ids
  end.

(** [global_position]: entity.py 551-555, group.py 368-372; [parent] is that of the
    group around it, if there is one. *)
Definition global (parent : option (Q * Q)) (x y : Q) : Q * Q :=
  match parent with Some (px, py) => (px + x, py + y)%Q | None => (x, y) end.

(** [flatten_entities], with the global position of each entity. *)
Fixpoint flat_part (parent : option (Q * Q)) (p : part) : list ((Q * Q) * dict) :=
  match p with
  | Ent _ x y body => [(global parent x y, body)]
  | Grp _ x y _ kids _ _ => flat_map (flat_part (Some (global parent x y))) kids
  end.
Definition flat_parts (ps : list part) : list ((Q * Q) * dict) := flat_map (flat_part None) ps.

(** [entity.to_dict()], with the serializer entity.py 192-194. *)
Definition entity_dict (e : (Q * Q) * dict) : dict :=
  set (snd e) (str "position") (vector (VFloat (fst (fst e))) (VFloat (snd (fst e)))).
(** The loop blueprint.py 151-163. *)
Fixpoint numbered_dicts (i : Z) (l : list ((Q * Q) * dict)) : list dict :=
  match l with
  | [] => []
  | e :: l => set (entity_dict e) (str "entity_number") (VInt (i + 1)) :: numbered_dicts (i + 1) l
  end.

(** tile.py 95-98. *)
Definition tile_dict (t : tile) : dict := [(str "name", t_name t); (str "position", ints (t_x t, t_y t))].
(** schedule.py; blueprint.py 223-235. *)
Definition sched_dict (numbers : list Z) (s : sched) : dict := (str "locomotives", VSeq (map VInt numbers)) :: sc_rest s.
(** blueprint.py 265-270. *)
Definition wire_val (w : Z * Z * Z * Z) : val :=
  let '(a, s, b, t) := w in VSeq [VInt a; VInt s; VInt b; VInt t].

(** ** Offsets, blueprint.py 1096-1104 *)
(** [v -= z] *)
Definition minus (v : val) (z : Z) : result val :=
  match v with
  | VInt a => Ok (VInt (a - z))
  | VFloat q => Ok (VFloat (q - inject_Z z)%Q)
  | VBool b => Ok (VInt ((if b then 1 else 0) - z))
  | _ => Err TypeError
  end.
Definition item (d : dict) (k : pystr) : result val := match get d k with Some v => Ok v | None => Err KeyError end.
Definition as_map (v : val) : result dict := match v with VMap d => Ok d | _ => Err TypeError end.
Definition shift (o : Z * Z) (d : dict) : result dict :=
  let* p := item d (str "position") in
  let* p := as_map p in
  let* x := item p (str "x") in
  let* x := minus x (fst o) in
  let p := set p (str "x") x in
  let* y := item p (str "y") in
  let* y := minus y (snd o) in
  Ok (set d (str "position") (VMap (set p (str "y") y))).

(** ** Dumping, exportable.py 319-334 *)
Section Dump.
  Variables (exclude_none exclude_defaults : bool).
  (** A field, its default and its value. *)
  Definition field (k : pystr) (default v : val) : dict :=
    if (exclude_none && is_none v) || (exclude_defaults && py_eq v default) then [] else [(k, v)].
  Definition flag (o : option bool) : val := match o with Some b => VBool b | None => VNone end.
  (** blueprint.py 302-396: the body.  The fields entities, tiles, schedules and
      wires of the model stay empty. *)
  Definition dump (b : sheet) : dict :=
    [(str "item", VStr (str "blueprint"))] ++
    field (str "label") VNone (b_label b) ++
    field (str "label_color") VNone (b_color b) ++
    field (str "description") VNone (b_description b) ++
    field (str "icons") VNone (b_icons b) ++
    field (str "version") VNone (b_version b) ++
    [(str "snap-to-grid", ints (b_size b))] ++
    field (str "absolute-snapping") (VBool true) (flag (b_absolute b)) ++
    [(str "position-relative-to-grid", ints (b_relative b))] ++
    field (str "entities") (VSeq []) (VSeq []) ++
    field (str "tiles") (VSeq []) (VSeq []) ++
    field (str "schedules") (VSeq []) (VSeq []) ++
    field (str "wires") (VSeq []) (VSeq []) ++
    field (str "stock_connections") (VSeq []) (VSeq (b_stock b)).
End Dump.

(** [if d[k] == {"x": 0, "y": 0}: del d[k]], 1118-1125. *)
Definition drop_zero (k : pystr) (d : dict) : dict :=
  match get d k with
  | Some v => if py_eq v (ints (0, 0)%Z) then del d k else d
  | None => d
  end.
(** [if len(d[k]) == 0: del d[k]], 1127-1134. *)
Definition drop_empty (k : pystr) (d : dict) : dict :=
  match get d k with Some (VSeq []) => del d k | _ => d end.

(** ** [Blueprint.to_dict], 1046-1136 *)
Definition to_dict (veq : nat -> nat -> bool) (en ed : bool) (b : sheet) : result dict :=
  let body := dump en ed b in
  let* x := export veq (mkC (map shape (b_parts b)) (b_ids b) (b_wires b)) (map sc_locos (b_scheds b)) in
  let es := numbered_dicts 0 (flat_parts (b_parts b)) in
  let ts := map tile_dict (b_tiles b) in
  let ss := map (fun p => VMap (sched_dict (fst p) (snd p))) (combine (x_scheds x) (b_scheds b)) in
  let* es := mapM (shift (b_origin b)) es in
  let* ts := mapM (shift (b_origin b)) ts in
  let body := set body (str "entities") (VSeq (map VMap es)) in
  let body := set body (str "tiles") (VSeq (map VMap ts)) in
  let body := set body (str "schedules") (VSeq ss) in
  let body := set body (str "wires") (VSeq (map wire_val (x_wires x))) in
  let body := drop_zero (str "snap-to-grid") body in
  let body := drop_zero (str "position-relative-to-grid") body in
  let body := drop_empty (str "entities") body in
  let body := drop_empty (str "tiles") body in
  let body := drop_empty (str "schedules") body in
  let body := drop_empty (str "wires") body in
  Ok ((str "blueprint", VMap body) :: field en ed (str "index") VNone (b_index b)).

(** ** Reading it back *)
Section Load.
  (** What a constructor makes of the data of an entity besides position and
      number: what the new entity dumps. *)
  Variable rebuild : dict -> result dict.
  (** The version draftsman was set up for. *)
  Variable current : val.

  Definition as_seq (v : val) : result (list val) := match v with VSeq l => Ok l | _ => Err TypeError end.
  Definition as_int (v : val) : result Z := match v with VInt z => Ok z | _ => Err TypeError end.
  Definition as_num (v : val) : result Q :=
    match v with VInt z => Ok (inject_Z z) | VFloat q => Ok q | _ => Err TypeError end.
  (** [int(v)] *)
  Definition to_int (v : val) : result Z :=
    match v with VInt z => Ok z | VFloat q => Ok (Z.quot (Qnum q) (Z.pos (Qden q))) | _ => Err TypeError end.
  (** vector.py 94-110 *)
  Definition point {A} (cast : val -> result A) (v : val) : result (A * A) :=
    let* d := as_map v in
    let* x := item d (str "x") in
    let* y := item d (str "y") in
    let* x := cast x in
    let* y := cast y in
    Ok (x, y).
  (** A keyword and its default. *)
  Definition keyword (d : dict) (k : pystr) (default : val) : val := match get d k with Some v => v | None => default end.
  (** blueprint.py 707-723, 805-822: nothing stands for (0, 0). *)
  Definition grid (v : val) : result (Z * Z) := match v with VNone => Ok (0, 0)%Z | _ => point to_int v end.
  (** [entities], [tiles] and [schedules] are [[]] by default; 576 for wires, 578
      for stock connections, where nothing means [[]] as well. *)
  Definition listing (v : val) : result (list val) := match v with VNone => Ok [] | _ => as_seq v end.

  (** The data of entity [i], entity_list.py 285-329 and entity.py 199-324. *)
  Definition read_entity (i : nat) (v : val) : result part :=
    let* d := as_map v in
    let* p := item d (str "position") in
    let* p := point as_num p in
    let* body := rebuild (del d (str "entity_number")) in
    Ok (Ent i (fst p) (snd p) body).
  Fixpoint read_entities (i : nat) (l : list val) : result (list part) :=
    match l with
    | [] => Ok []
    | v :: l => let* e := read_entity i v in let* es := read_entities (S i) l in Ok (e :: es)
    end.
  (** tile.py 100-146, tile_list.py *)
  Definition read_tile (v : val) : result tile :=
    let* d := as_map v in
    let* n := item d (str "name") in
    let* p := point to_int (keyword d (str "position") (ints (0, 0)%Z)) in
    Ok (mkTile n (fst p) (snd p)).
  Definition read_sched (v : val) : result (list Z * dict) :=
    let* d := as_map v in
    let* ls := listing (keyword d (str "locomotives") VNone) in
    let* ns := mapM as_int ls in
    Ok (ns, del d (str "locomotives")).
  Definition read_link (v : val) : result wire :=
    let* l := as_seq v in
    match l with
    | [a; s; b; t] =>
        let* a := as_int a in let* s := as_int s in let* b := as_int b in let* t := as_int t in
        Ok (WInt a, s, WInt b, t)
    | _ => Err IndexError
    end.
  Definition read_flag (v : val) : result (option bool) :=
    match v with VNone => Ok None | VBool b => Ok (Some b) | _ => Err DataFormatError end.

  (** blueprintable.py 96-103 and blueprint.py 517-630; the new entities are the
      objects from [base] on. *)
  Definition from_dict (base : nat) (doc : dict) : result sheet :=
    let* body := item doc (str "blueprint") in
    let* d := as_map body in
    let* size := grid (keyword d (str "snap-to-grid") VNone) in
    let* absolute := read_flag (keyword d (str "absolute-snapping") (VBool true)) in
    let* relative := grid (keyword d (str "position-relative-to-grid") VNone) in
    let* es := listing (keyword d (str "entities") (VSeq [])) in
    let* parts := read_entities base es in
    let* ts := listing (keyword d (str "tiles") (VSeq [])) in
    let* tiles := mapM read_tile ts in
    let* ss := listing (keyword d (str "schedules") (VSeq [])) in
    let* scheds := mapM read_sched ss in
    let* ws := listing (keyword d (str "wires") VNone) in
    let* wires := mapM read_link ws in
    let* stock := listing (keyword d (str "stock_connections") VNone) in
    let* linked := import (map shape parts) [] (map (fun s => map WInt (fst s)) scheds) wires in
    Ok {| b_label := keyword d (str "label") VNone; b_color := keyword d (str "label_color") VNone;
          b_description := keyword d (str "description") VNone; b_icons := keyword d (str "icons") VNone;
          b_version := keyword d (str "version") current;
          b_size := size; b_origin := (0, 0)%Z; b_absolute := absolute; b_relative := relative;
          b_parts := parts; b_ids := []; b_tiles := tiles;
          b_scheds := map (fun p => mkSched (fst p) (snd (snd p))) (combine (snd linked) scheds);
          b_wires := c_wires (fst linked); b_stock := stock;
          b_index := keyword doc (str "index") VNone |}.
End Load.
