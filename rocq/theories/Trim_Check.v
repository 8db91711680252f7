(** A decidable condition on the description of an entity class under which its
    trimmed exports come back (C48). Used in proofs only. *)
From Coq Require Import ZArith NArith QArith String List Bool.
From Verif Require Import Common Dict Trim_Model Trim_Spec.
Import ListNotations.
Local Open Scope string_scope.
Local Open Scope list_scope.
Local Open Scope bool_scope.

Definition nolax : oracle := fun _ _ => None.

(** Deciding [fits] and [sane]. *)
Fixpoint fitsb (t : typ) (v : val) {struct t} : bool :=
  match t with
  | Plain k => typed k v
  | Opt t => is_none v || fitsb t v
  | ListOf t => match v with VSeq l => forallb (fitsb t) l | _ => false end
  | Model c fs =>
      match v with
      | VRec c' r ex =>
          pystr_eqb c c' &&
          ((fix rows (fs : list (field * typ)) (r : list (pystr * val)) {struct fs} : bool :=
              match fs, r with
              | [], [] => true
              | (f, t) :: fs', (k, x) :: r' => pystr_eqb k (attr f) && fitsb t x && rows fs' r'
              | _, _ => false
              end) fs r) &&
          distinct (map fst ex) &&
          forallb (fun kv => negb (mem (fst kv) (all_names fs)) && plain (snd kv)) ex
      | _ => false
      end
  end.
Fixpoint saneb (t : typ) : bool :=
  match t with
  | Plain _ => true
  | Opt t => saneb t
  | ListOf t => saneb t
  | Model _ fs =>
      distinct (all_names fs) &&
      ((fix rows (fs : list (field * typ)) : bool :=
          match fs with
          | [] => true
          | (f, t) :: fs' => saneb t && match default f with Some d => fitsb t d | None => true end && rows fs'
          end) fs)
  end.

(** The last assignment to an attribute. *)
Fixpoint last_store (a : pystr) (ss : list step) : option (source * option val) :=
  match ss with
  | [] => None
  | Store b s n :: ss' =>
      match last_store a ss' with
      | Some x => Some x
      | None => if pystr_eqb a b then Some (s, n) else None
      end
  end.
Definition find_arg (c : class_) (k : pystr) : option arg :=
  find (fun a => pystr_eqb (arg_name a) k) (c_passed c).
Definition arg_keys (a : arg) : list pystr := match a with Pass p _ => [p] | PassOr p o _ => [p; o] end.

(** What is handed on under a name. *)
Definition hand (c : class_) (kw : list (pystr * val)) (k : pystr) : option val :=
  match find_arg c k with
  | Some a =>
      let v := argument c kw a in
      if pystr_eqb k (str "position") && is_none v then None else Some v
  | None =>
      if has (c_params c) k then None
      else match get kw k with
           | Some v => if pystr_eqb k (str "position") && is_none v then None else Some v
           | None => None
           end
  end.
Fixpoint hand_first (c : class_) (kw : list (pystr * val)) (keys : list pystr) (dflt : val) : val :=
  match keys with
  | [] => dflt
  | k :: keys' => match hand c kw k with Some v => v | None => hand_first c kw keys' dflt end
  end.

(** A key given under its name reaches [Entity.__init__]. *)
Definition reaches (c : class_) (k : pystr) : bool :=
  match find_arg c k with
  | Some (Pass p _) => pystr_eqb p k
  | Some (PassOr _ _ _) => false
  | None => negb (has (c_params c) k)
  end.
(** ... and the attribute. *)
Definition feeds (c : class_) (f : field) : bool :=
  match last_store (attr f) (c_steps c) with
  | Some (Kwarg (k :: _) _, _) => pystr_eqb k (key f) && reaches c (key f)
  | Some (Kwarg [] _, _) => false
  | Some (Param p, _) => pystr_eqb p (key f)
  | None => reaches c (key f)
  end.
(** Without the field's names among the keywords the attribute is assigned
    without looking at the keywords at all. *)
Definition hand_fixed (c : class_) (ns : list pystr) (k : pystr) : bool :=
  match find_arg c k with
  | Some a => forallb (fun p => mem p ns) (arg_keys a)
  | None => has (c_params c) k || mem k ns
  end.
Definition fixed (c : class_) (f : field) : bool :=
  match last_store (attr f) (c_steps c) with
  | Some (Kwarg keys _, _) => forallb (hand_fixed c (names f)) keys
  | Some (Param p, _) => mem p (names f)
  | None => hand_fixed c (names f) (key f) && hand_fixed c (names f) (attr f)
  end.
(** The assignment never looks at the key the field is exported under. *)
Definition deaf (c : class_) (f : field) : bool :=
  match last_store (attr f) (c_steps c) with
  | Some (Param p, _) => negb (pystr_eqb p (key f)) && pystr_eqb p (attr f)
  | _ => false
  end.

(** What the attribute is then, before and after validation. *)
Definition fresh (c : class_) (f : field) : option val :=
  match last_store (attr f) (c_steps c) with
  | Some (Kwarg keys dflt, n) => Some (none_to n (hand_first c [] keys dflt))
  | Some (Param p, n) => Some (none_to n (param c [] p))
  | None =>
      match hand c [] (key f) with
      | Some v => Some v
      | None =>
          match get base_dict (key f) with
          | Some v => Some v
          | None =>
              match hand c [] (attr f) with
              | Some v => Some v
              | None => match get base_dict (attr f) with Some v => Some v | None => None end
              end
          end
      end
  end.
Definition stored (c : class_) (f : field) : bool :=
  match last_store (attr f) (c_steps c) with Some _ => true | None => false end.
Definition raw_kept (f : field) : bool := pystr_eqb (attr f) (str "direction") || pystr_eqb (attr f) (str "orientation").
Definition again (f : field) (t : typ) (v : val) : option val :=
  match load nolax false t v with
  | Some y => if fitsb t y then Some (if raw_kept f then v else y) else None
  | None => None
  end.
Definition settled (c : class_) (f : field) (t : typ) : option val :=
  match fresh c f with
  | Some v =>
      if stored c f then again f t v
      else match load nolax false t v with Some y => again f t y | None => None end
  | None => match default f with Some d => again f t d | None => None end
  end.

Definition simple (t : typ) : bool :=
  match t with Plain _ | Opt (Plain _) => true | _ => false end.
Definition alias_free (c : class_) (f : field) : bool :=
  pystr_eqb (attr f) (key f) ||
  (negb (has base_dict (attr f)) && negb (has base_dict (key f)) &&
   match find_arg c (attr f) with
   | None => true
   | Some (PassOr p o u) =>
       pystr_eqb o (key f) && py_eq (param c [] p) u && pystr_eqb p (attr f) && stored c f &&
       match last_store (attr f) (c_steps c) with Some (Kwarg (k :: _) _, None) => pystr_eqb k (key f) | _ => false end &&
       match find_arg c (key f) with Some _ => false | None => negb (has (c_params c) (key f)) end
   | Some (Pass _ _) => false
   end).

(** Whether a field that may be left out comes back. *)
Definition field_back (c : class_) (f : field) (t : typ) : bool :=
  match default f, settled c f t with
  | Some d, Some y => py_eq d y
  | _, _ => false
  end.
Definition field_ready (c : class_) (f : field) (t : typ) : bool :=
  alias_free c f &&
  match default f with Some _ => true | None => if hidden f then has base_dict (key f) else reaches c (key f) end &&
  (if hidden f then fixed c f && match settled c f t with Some _ => true | None => false end
   else
     (feeds c f || (deaf c f && match settled c f t with Some _ => true | None => false end)) && (negb (raw_kept f) || (stored c f && simple t)) &&
     match default f with
     | None => true
     | Some _ => fixed c f && match settled c f t with Some _ => true | None => false end
     end).
Definition field_good (c : class_) (f : field) (t : typ) : bool :=
  field_ready c f t && negb (hidden f) && negb (deaf c f) &&
  match default f with None => true | Some _ => field_back c f t end.
(** An empty control behaviour is the default one. *)
Definition control_ok (c : class_) : bool :=
  negb (c_control c) ||
  mem (str "control_behavior") (all_names (c_fields c)) &&
  forallb (fun ft =>
    negb (pystr_eqb (key (fst ft)) (str "control_behavior")) ||
    match default (fst ft), load nolax false (snd ft) (VMap []) with
    | Some d, Some y => py_eq y d
    | _, _ => false
    end) (c_fields c).
Definition class_ready (c : class_) : bool :=
  saneb (format c) &&
  distinct (map arg_name (c_passed c)) &&
  forallb (fun a => has (c_params c) (arg_name a)) (c_passed c) &&
  forallb (fun s => match s with Store a _ _ => existsb (fun ft => pystr_eqb (attr (fst ft)) a) (c_fields c) end) (c_steps c) &&
  forallb (fun k => mem k (all_names (c_fields c))) (map fst base_dict) &&
  control_ok c &&
  forallb (fun ft => field_ready c (fst ft) (snd ft)) (c_fields c).
