(** Model of blueprint books: [BlueprintableList]
    (/repo/draftsman/classes/blueprint_book.py 86-156), [BlueprintBook.to_dict]
    (526-566), the loading of a book and its members
    ([Blueprintable.__init__] classes/blueprintable.py 47-104,
    [BlueprintBook.setup] blueprint_book.py 294-346) and
    [get_blueprintable_from_JSON] (/repo/draftsman/blueprintable.py 61-92).

    Simplifications.  Everything a blueprint, planner or book holds apart from
    its index, its members and the keys the format does not know is an opaque
    [content]; exporting and re-importing that content is the business of other
    areas and is taken to be lossless and valid here.  A key the format does not
    know that repeats the name of the object's own root key is not modelled (the
    loader answers [DataFormatError]), and an [index] that is not a number is
    only distinguished by being rejected in strict mode. *)
From Coq Require Import ZArith String List Bool.
From Verif Require Import Common Dict.
Import ListNotations.
Local Open Scope string_scope.
Local Open Scope list_scope.
Local Open Scope Z_scope.

(** The four classes accepted by [check_blueprintable] (blueprint_book.py 148-156). *)
Inductive kind := KBlueprint | KDeconstruction | KUpgrade | KBook.
(** The root key of each class ([root_item]: blueprint.py 480,
    deconstruction_planner.py 268, upgrade_planner.py 437, blueprint_book.py 280). *)
Definition root_item (k : kind) : pystr :=
  match k with
  | KBlueprint => str "blueprint" | KDeconstruction => str "deconstruction_planner"
  | KUpgrade => str "upgrade_planner" | KBook => str "blueprint_book"
  end.
Definition content := pystr.

(** JSON values as far as they matter here: an object carries its recognised
    fields as [content] and the remaining keys in order. *)
Inductive jval :=
| JNone
| JInt (z : Z)
| JText (t : pystr)
| JList (l : list jval)
| JObj (c : content) (fields : list (pystr * jval)).

(** A blueprintable: class, content, [index] property (blueprintable.py 409-432),
    unknown keys set on [_root] by [setup] (blueprint_book.py 341-343) and, for a
    book, its [_blueprints] list. *)
Inductive item := Item (k : kind) (c : content) (index : option Z) (extras : list (pystr * jval)) (members : list item).
Definition item_kind (x : item) := match x with Item k _ _ _ _ => k end.
Definition item_content (x : item) := match x with Item _ c _ _ _ => c end.
Definition item_index (x : item) := match x with Item _ _ i _ _ => i end.
Definition item_extras (x : item) := match x with Item _ _ _ e _ => e end.
Definition item_members (x : item) := match x with Item _ _ _ _ m => m end.

Definition K_index := str "index".
Definition K_blueprints := str "blueprints".
Definition has_key (k : pystr) (fs : list (pystr * jval)) : bool :=
  match dget pystr_eqb fs k with Some _ => true | None => false end.
Definition is_none (v : jval) : bool := match v with JNone => true | _ => false end.

(** [self._root.model_dump(exclude_none, exclude_defaults)] (exportable.py
    319-334): root key, index (default [None]), unknown keys. *)
Definition dump (exclude_none exclude_defaults : bool) (k : kind) (body : jval) (index : option Z)
    (extras : list (pystr * jval)) : list (pystr * jval) :=
  (root_item k, body)
  :: (match index with
      | Some i => [(K_index, JInt i)]
      | None => if exclude_none || exclude_defaults then [] else [(K_index, JNone)]
      end)
  ++ (if exclude_none then filter (fun kv => negb (is_none (snd kv))) extras else extras).

(** The loop over [enumerate(self.blueprints)] (blueprint_book.py 540-548). *)
Fixpoint number (i : Z) (entries : list (list (pystr * jval))) : list jval :=
  match entries with
  | [] => []
  | e :: r => JObj [] (if has_key K_index e then e else e ++ [(K_index, JInt i)]) :: number (i + 1) r
  end.
(** [Blueprintable.to_dict] (exportable.py 319-334) and [BlueprintBook.to_dict]
    (blueprint_book.py 526-566): the key ["blueprints"] is deleted when empty. *)
Fixpoint to_dict (en ed : bool) (x : item) : list (pystr * jval) :=
  match x with
  | Item KBook c index extras members =>
      let converted := number 0 (map (to_dict en ed) members) in
      let body := match converted with [] => JObj c [] | _ => JObj c [(K_blueprints, JList converted)] end in
      dump en ed KBook body index extras
  | Item k c index extras _ => dump en ed k (JObj c []) index extras
  end.

(** ** Loading *)
Definition is_index_ok (v : jval) : bool :=
  match v with JNone => true | JInt z => (0 <=? z) && (z <? 65536) | _ => false end.
(** Keywords that would be passed to [setup] twice (blueprintable.py 93-98). *)
Definition clashes (fs : list (pystr * jval)) : bool :=
  has_key K_index fs || has_key (str "validate") fs || has_key (str "self") fs.

(** What a JSON value turns into when it stands in a given place: as an element
    of a book's list, as the list itself, as the object under a root key. *)
Record views := { as_element : result item; as_list : result (list item);
                  as_body : kind -> result (content * list (pystr * jval) * list item) }.
Fixpoint mapM_elements (l : list views) : result (list item) :=
  match l with
  | [] => Ok []
  | v :: r => let* x := as_element v in let* xs := mapM_elements r in Ok (x :: xs)
  end.
(** The dispatch of [BlueprintableList.__init__] (blueprint_book.py 98-123) and of
    [get_blueprintable_from_JSON] (blueprintable.py 81-92) share the order of tests. *)
Definition dispatch {V} (fs : list (pystr * V)) : option (kind * V) :=
  let try k rest := match dget pystr_eqb fs (root_item k) with Some v => Some (k, v) | None => rest end in
  try KBlueprint (try KDeconstruction (try KUpgrade (try KBook None))).
(** [Blueprint(elem)], … with the default [validate="strict"]: unpack the body
    ([**] of something that is not an object: TypeError), then validate [index]. *)
Definition construct (strict : bool) (k : kind) (v : views) (index : jval) : result item :=
  let* b := as_body v k in
  let '(c, extras, members) := b in
  if strict && negb (is_index_ok index) then Err DataFormatError
  else match index with
       | JInt z => Ok (Item k c (Some z) extras members)
       | _ => Ok (Item k c None extras members)
       end.
Definition index_of_dict (fs : list (pystr * (jval * views))) : jval :=
  match dget pystr_eqb fs K_index with Some (v, _) => v | None => JNone end.
Fixpoint interp (v : jval) : views :=
  match v with
  | JList l =>
      {| as_element := Err TypeError; as_list := mapM_elements (map interp l); as_body := fun _ => Err TypeError |}
  | JObj c fields =>
      let fs := map (fun kv => (fst kv, (snd kv, interp (snd kv)))) fields in
      {| as_element :=
           match dispatch fs with
           | Some (k, (_, b)) => construct true k b (index_of_dict fs)
           | None => Err DataFormatError
           end;
         as_list := Err TypeError;
         as_body := fun k =>
           if clashes fields then Err TypeError
           else if has_key (root_item k) fields then Err DataFormatError
           else match k with
                | KBook =>
                    match dget pystr_eqb fs K_blueprints with
                    | Some (_, l) => let* ms := as_list l in Ok (c, ddel pystr_eqb fields K_blueprints, ms)
                    | None => Ok (c, fields, [])
                    end
                | _ => Ok (c, fields, [])
                end |}
  | _ => {| as_element := Err TypeError; as_list := Err TypeError; as_body := fun _ => Err TypeError |}
  end.
(** [BlueprintableList([d])] for one dictionary. *)
Definition from_element (d : list (pystr * jval)) : result item := as_element (interp (JObj [] d)).
(** [get_blueprintable_from_JSON] (blueprintable.py 61-92); an empty dictionary
    has no first key to name in the message: IndexError. *)
Definition get_blueprintable_from_JSON (d : list (pystr * jval)) : result item :=
  let fs := map (fun kv => (fst kv, (snd kv, interp (snd kv)))) d in
  match dispatch fs with
  | Some (k, (_, b)) => construct true k b (index_of_dict fs)
  | None => match d with [] => Err IndexError | _ => Err IncorrectBlueprintTypeError end
  end.
(** [Blueprint(d, validate=…)], …: the class is fixed, the body must be there
    ([init_data[self._root_item]], KeyError).  The members of a book are always
    validated strictly ([BlueprintableList] passes no mode on). *)
Definition load_as (k : kind) (strict : bool) (d : list (pystr * jval)) : result item :=
  let fs := map (fun kv => (fst kv, (snd kv, interp (snd kv)))) d in
  match dget pystr_eqb fs (root_item k) with
  | Some (_, b) => construct strict k b (index_of_dict fs)
  | None => Err KeyError
  end.

(** ** The list type *)
(** Values one may try to put into the list. *)
Inductive pyval := Blueprintable (x : item) | Foreign.
(** [BlueprintableList.insert]/[__setitem__]/[__delitem__] (blueprint_book.py
    125-140): assigning to a slice always fails, since the value would have to be
    a blueprintable and a sequence of them at once. *)
Definition list_insert (l : list item) (idx : Z) (v : pyval) : result (list item) :=
  match v with Blueprintable x => Ok (py_insert l idx x) | Foreign => Err TypeError end.
Definition list_set (l : list item) (idx : Z) (v : pyval) : result (list item) :=
  match v with
  | Blueprintable x =>
      match py_pos (Z.of_nat (List.length l)) idx with
      | Some i => Ok (replace_nth l i x)
      | None => Err IndexError
      end
  | Foreign => Err TypeError
  end.
Definition list_set_slice (l : list item) (v : pyval) : result (list item) := Err TypeError.
Definition list_del (l : list item) (idx : Z) : result (list item) :=
  match py_pos (Z.of_nat (List.length l)) idx with
  | Some i => Ok (remove_nth l i)
  | None => Err IndexError
  end.
