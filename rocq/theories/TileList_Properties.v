(** Property theorems C17: the tile list. *)
From Coq Require Import ZArith NArith List Bool String Permutation.
From Verif Require Import Common Dict Spatial_Model TileList_Model TileList_Spec TileList_Proofs TileList_Rename_Proofs.
Import ListNotations.
Local Open Scope string_scope.
Local Open Scope list_scope.

Definition no_renames (ops : list top) : Prop := forallb (fun o => negb (is_rename o)) ops = true.
Definition tl (n : string) (x y : Z) : tile := mkTile (str n) x y.

(** After any history (of insertions, deletions, slices, replacements, clears)
    every further operation acts as on a plain list of tiles; an insertion with
    [merge] is dropped exactly when an equal tile is listed. *)
Theorem C17_acts_as_plain_list : forall ops o, no_renames ops -> is_rename o = false ->
  let s := run_tiles ops in
  plain_step (tiles s) o (tiles (fst (tl_step s o))) (snd (tl_step s o)).
Proof. intros ops o H Ho. apply (step_tgood _ o (run_tinv ops H) Ho). Qed.
Print Assumptions C17_acts_as_plain_list.

(** The index holds exactly the listed tiles, each as often as it is listed and
    in its own cell only. *)
Theorem C17_index_in_step : forall ops, no_renames ops ->
  let s := run_tiles ops in
  Permutation (indexed s) (tiles s) /\
  forall c t, (In t (match cell_get (tmap s) c with Some l => map (tval (th s)) l | None => [] end) <->
               In t (tiles s) /\ cell_of t = c).
Proof. intros ops H. exact (tinv_index _ (run_tinv ops H)). Qed.
Print Assumptions C17_index_in_step.

(** Lists filled only by merging insertions never hold a tile twice. *)
Definition merging (o : top) : bool :=
  match o with
  | TAppend _ m | TInsert _ _ m => m
  | TSet _ _ | TRename _ _ => false
  | _ => true
  end.
Theorem C17_merged_not_listed_twice : forall ops, forallb merging ops = true ->
  NoDup (tiles (run_tiles ops)).
Proof. exact merging_nodup. Qed.
Print Assumptions C17_merged_not_listed_twice.

(** Union, intersection and difference are the mathematical ones, and their
    results are again in step with their index. *)
Theorem C17_set_operations : forall h a b,
  (forall o, In o a -> (o < List.length h)%nat) -> (forall o, In o b -> (o < List.length h)%nat) ->
  let va := map (tval h) a in let vb := map (tval h) b in
  exists ina inb : tile -> bool,
    (forall t, ina t = true <-> In t va) /\ (forall t, inb t = true <-> In t vb) /\
    tiles (tl_union h a b) = va ++ filter (fun t => negb (ina t)) vb /\
    tiles (tl_intersection h a b) = filter inb va /\
    tiles (tl_difference h a b) = filter (fun t => negb (inb t)) va /\
    Permutation (indexed (tl_union h a b)) (tiles (tl_union h a b)) /\
    Permutation (indexed (tl_intersection h a b)) (tiles (tl_intersection h a b)) /\
    Permutation (indexed (tl_difference h a b)) (tiles (tl_difference h a b)).
Proof. exact set_operations. Qed.
Print Assumptions C17_set_operations.

(** Renaming a listed tile renames that one member and nothing else, whatever
    happened before (renames included). *)
Theorem C17_rename : forall ops p nm, let s := run_tiles ops in
  plain_step (tiles s) (TRename p nm) (tiles (fst (tl_step s (TRename p nm)))) (snd (tl_step s (TRename p nm))).
Proof. exact rename_run. Qed.
Print Assumptions C17_rename.
(** If equal tiles were never listed together, the index follows any number of
    renames. *)
Theorem C17_rename_indexed : forall ops rs, forallb merging ops = true -> forallb is_rename rs = true ->
  let s := run_tiles (ops ++ rs) in
  Permutation (indexed s) (tiles s) /\
  forall c t, (In t (match cell_get (tmap s) c with Some l => map (tval (th s)) l | None => [] end) <->
               In t (tiles s) /\ cell_of t = c).
Proof. exact renames_indexed. Qed.
Print Assumptions C17_rename_indexed.
Example C17_ex_rename :
  let s := run_tiles [TAppend (tl "a" 0 0) true; TAppend (tl "b" 9 0) true; TRename 1 (str "c"); TRename 7 (str "d")] in
  tiles s = [tl "a" 0 0; tl "c" 9 0] /\ indexed s = [tl "a" 0 0; tl "c" 9 0].
Proof. split; reflexivity. Qed.

(** In general renaming listed tiles breaks the agreement: with two equal tiles, deleting
    the second removes the first from the index; renaming the remaining one
    leaves its old name there, and not the new one. *)
Theorem C17_rename_refuted : exists ops,
  tiles (run_tiles ops) = [tl "stone" 0 0] /\ indexed (run_tiles ops) = [tl "water" 0 0].
Proof.
  exists [TAppend (tl "water" 0 0) false; TAppend (tl "water" 0 0) false; TDel 1; TRename 0 (str "stone")].
  split; reflexivity.
Qed.
Print Assumptions C17_rename_refuted.

Example C17_ex :
  let s := run_tiles [TAppend (tl "a" 0 0) true; TAppend (tl "b" 9 0) true; TInsert 0 (tl "a" 0 0) true;
                      TInsert (-1) (tl "c" (-1) 0) false; TSet 0 (tl "d" 5 5); TDelSlice (Some 1%Z) (Some 2%Z) None] in
  tiles s = [tl "d" 5 5; tl "b" 9 0] /\ indexed s = [tl "b" 9 0; tl "d" 5 5].
Proof. split; reflexivity. Qed.
Example C17_sets_ex :
  let h := [tl "a" 0 0; tl "b" 0 0; tl "c" 0 0; tl "a" 0 0; tl "d" 0 0] in
  tiles (tl_union h [0; 1; 2]%nat [3; 4]%nat) = [tl "a" 0 0; tl "b" 0 0; tl "c" 0 0; tl "d" 0 0] /\
  tiles (tl_intersection h [0; 1; 2]%nat [3; 4]%nat) = [tl "a" 0 0] /\
  tiles (tl_difference h [0; 1; 2]%nat [3; 4]%nat) = [tl "b" 0 0; tl "c" 0 0].
Proof. repeat split. Qed.
