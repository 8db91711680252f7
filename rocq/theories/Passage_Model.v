(** Whole blueprints as strings.

    /repo/draftsman/classes/blueprintable.py 85-105 (the constructor), 107-145
    ([load_from_string]), 544-568 ([to_string]);
    /repo/draftsman/blueprintable.py 22-58 ([get_blueprintable_from_string]).

    The string itself is Codec_Model's, the dictionary is Document_Model's, and
    here the values of the one become values of the other.
    Simplifications: a floating point number is the rational it stands for, so
    that documents holding NaN or an infinity have no counterpart ([OutOfFuel]);
    the other three kinds of blueprintable are only told apart. *)
From Coq Require Import ZArith NArith QArith String List Bool.
From Verif Require Import Common Dict Codec_Model Trim_Model Wires_Model Document_Model.
Import ListNotations.
Local Open Scope string_scope.
Local Open Scope list_scope.

(** The floating point number of a value, and the value of one. *)
Record numbers (L : lib) := { to_flt : Q -> flt L; of_flt : flt L -> Q }.
Arguments to_flt {L}. Arguments of_flt {L}.

(** What a class is made from: a blueprint, or a class by its root keyword and
    what its constructor is called with. *)
Inductive opened := Opened (b : sheet) | Planner (kind : pystr) (init : val).

Section Passage.
  Variable L : lib.
  Variable N : numbers L.

  (** What [json.dumps] is given (utils.py 416): dumped values have no models left
      in them, which it would refuse. *)
  Fixpoint to_json (v : val) : result (json (flt L)) :=
    match v with
    | VNone => Ok JNull
    | VBool b => Ok (JBool b)
    | VInt z => Ok (JInt z)
    | VFloat q => Ok (JFloat (to_flt N q))
    | VStr s => Ok (JStr s)
    | VSeq l =>
        let* l := (fix go l := match l with [] => Ok [] | v :: l => let* j := to_json v in let* js := go l in Ok (j :: js) end) l in
        Ok (JList l)
    | VMap d =>
        let* l := (fix go (d : list (pystr * val)) :=
          match d with [] => Ok [] | (k, v) :: d => let* j := to_json v in let* js := go d in Ok ((k, j) :: js) end) d in
        Ok (JObj l)
    | VRec _ _ _ => Err TypeError
    end.
  Fixpoint of_json (j : json (flt L)) : option val :=
    match j with
    | JNull => Some VNone
    | JBool b => Some (VBool b)
    | JInt z => Some (VInt z)
    | JFloat f => Some (VFloat (of_flt N f))
    | JNaN | JInf | JNegInf => None
    | JStr s => Some (VStr s)
    | JList l =>
        option_map VSeq ((fix go l := match l with
          | [] => Some []
          | j :: l => match of_json j, go l with Some v, Some vs => Some (v :: vs) | _, _ => None end
          end) l)
    | JObj l =>
        option_map VMap ((fix go (l : list (pystr * json (flt L))) := match l with
          | [] => Some []
          | (k, j) :: l => match of_json j, go l with Some v, Some vs => Some ((k, v) :: vs) | _, _ => None end
          end) l)
    end.

  (** blueprintable.py 544-568; [to_dict] leaves out nothing and defaults. *)
  Definition to_string (veq : nat -> nat -> bool) (b : sheet) : result pystr :=
    let* doc := to_dict veq true true b in
    let* j := to_json (VMap doc) in
    JSON_to_string L j.

  (** utils.py 381-398. *)
  Definition parse (s : pystr) : result val :=
    let* j := string_to_JSON L s in
    match of_json j with Some v => Ok v | None => Err OutOfFuel end.

  (** [k in root]: a key, an element, or a part of a text. *)
  Fixpoint begins (p s : pystr) : bool :=
    match p, s with
    | [], _ => true
    | c :: p, d :: s => N.eqb c d && begins p s
    | _ :: _, [] => false
    end.
  Fixpoint within (p s : pystr) : bool :=
    begins p s || match s with [] => false | _ :: s => within p s end.
  Definition member (k : pystr) (root : val) : result bool :=
    match root with
    | VMap d => Ok (has d k)
    | VSeq l => Ok (existsb (fun v => match v with VStr s => pystr_eqb k s | _ => false end) l)
    | VStr s => Ok (within k s)
    | _ => Err TypeError
    end.

  Section Load.
    Variable rebuild : dict -> result dict.
    Variable current : val.
    Variable base : nat.

    (** [self.setup( **root["blueprint"], index=root.get("index", None),
        validate=validate)]: the keywords given twice are refused. *)
    Definition setup (root : dict) : result sheet :=
      let* body := item root (str "blueprint") in
      let* d := as_map body in
      if existsb (has d) (map str ["self"; "index"; "validate"]) then Err TypeError
      else from_dict rebuild current base root.

    (** 107-145.  The message names [next(iter(root))], the first key; other values
        than dictionaries cannot be indexed by a text. *)
    Definition load_from_string (s : pystr) : result sheet :=
      let* root := parse s in
      let* inside := member (str "blueprint") root in
      if inside then match root with VMap d => setup d | _ => Err TypeError end
      else match root with
           | VMap [] | VSeq [] | VStr [] => Err StopIteration
           | _ => Err IncorrectBlueprintTypeError
           end.

    (** 89-105, [Blueprint(init)]. *)
    Definition blueprint_of (init : val) : result sheet :=
      match init with
      | VNone => setup [(str "blueprint", VMap [])]
      | VStr s => load_from_string s
      | VMap d => setup d
      | _ => Err DataFormatError
      end.

    (** blueprintable.py 22-58; the message names [list(root.keys())[0]]. *)
    Definition get_blueprintable_from_string (s : pystr) : result opened :=
      let* root := parse s in
      let* blueprint := member (str "blueprint") root in
      if blueprint then let* b := blueprint_of root in Ok (Opened b) else
      let* planner := member (str "deconstruction_planner") root in
      if planner then Ok (Planner (str "deconstruction_planner") root) else
      let* planner := member (str "upgrade_planner") root in
      if planner then Ok (Planner (str "upgrade_planner") root) else
      let* book := member (str "blueprint_book") root in
      if book then Ok (Planner (str "blueprint_book") root) else
      match root with
      | VMap [] => Err IndexError
      | VMap _ => Err IncorrectBlueprintTypeError
      | _ => Err AttributeError
      end.
  End Load.
End Passage.
