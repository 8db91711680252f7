(** C61: signals and their types. *)
From Coq Require Import ZArith List Bool String Permutation.
From Verif Require Import Common Dict Ranking_Model Ranking_Spec Signal_Model Signal_Spec Signal_Proofs.
Import ListNotations.
Local Open Scope string_scope.
Local Open Scope list_scope.

(** The tables made from the game's data tell one story: a signal has exactly the
    types it is offered under, and each list shows it as often as it is offered. *)
Theorem C61_extract : forall items subgroups groups cats s, proper_data cats ->
  extract_signals items subgroups groups cats = Ok s ->
  one_story s /\ (forall n t, has_type s n t <-> offered cats n t) /\
  (forall t, In t permitted -> exists l, dget pystr_eqb (sg_lists s) t = Some l /\ Permutation l (offers cats t)).
Proof. exact extract_spec. Qed.
Print Assumptions C61_extract.

(** Making them fails exactly when some prototype has no place in the order. *)
Theorem C61_extract_iff : forall items subgroups groups cats, proper_data cats ->
  ((exists s, extract_signals items subgroups groups cats = Ok s) <->
   (forall t c n o, In (t, c) cats -> In (n, o) c -> exists r, ranked items subgroups groups o r)) /\
  (forall e, extract_signals items subgroups groups cats = Err e -> e = KeyError).
Proof. exact extract_iff. Qed.
Print Assumptions C61_extract_iff.

(** The permitted types. *)
Theorem C61_permitted : forall t, In t permitted <->
  t = str "item" \/ t = str "fluid" \/ t = str "recipe" \/ t = str "entity" \/ t = str "space-location" \/
  t = str "asteroid-chunk" \/ t = str "quality" \/ t = str "virtual".
Proof. intros t. unfold permitted. cbn [In]. intuition congruence. Qed.
Print Assumptions C61_permitted.
(** Adding a signal: it succeeds exactly for the permitted types ... *)
Theorem C61_add_iff : forall s n t,
  ((exists s', add_signal s n t = Ok s') <-> In t permitted) /\
  ((exists s', add_signal s n t = Ok s') \/ add_signal s n t = Err ValueError).
Proof. intros s n t. split; [exact (add_ok s n t)|exact (add_error s n t)]. Qed.
Print Assumptions C61_add_iff.

(** ... and then this name has this type besides its other ones; nothing else changes. *)
Theorem C61_add : forall s n t s', add_signal s n t = Ok s' ->
  (forall n' t', has_type s' n' t' <-> has_type s n' t' \/ (n' = n /\ t' = t)) /\
  (forall n' t', in_list s' n' t' <-> in_list s n' t' \/ (n' = n /\ t' = t)) /\
  (forall n', dget pystr_eqb (sg_raw s') n' = if pystr_eqb n n' then Some (Some n, Some t) else dget pystr_eqb (sg_raw s) n') /\
  (one_story s -> one_story s').
Proof.
  intros s n t s' E. split; [exact (add_types s n t s' E)|]. split; [exact (add_lists s n t s' E)|].
  split; [intros n'; exact (add_raw s n t s' n' E)|intros S; exact (add_story s n t s' S E)].
Qed.
Print Assumptions C61_add.

(** A signal is listed once exactly as long as no type is given to it again. *)
Theorem C61_add_once : forall s n t s', one_story s -> listed_once s -> add_signal s n t = Ok s' ->
  (listed_once s' <-> ~ has_type s n t).
Proof. exact add_once. Qed.
Print Assumptions C61_add_once.

(** Sequences of additions, stopped by the first type that is not permitted. *)
Theorem C61_add_list : forall l s, one_story s ->
  let (s', e) := add_signal_list s l in
  one_story s' /\
  (forall n t, has_type s' n t <-> has_type s n t \/
     exists l1 l2, l = l1 ++ (n, t) :: l2 /\ Forall (fun p => In (snd p) permitted) (l1 ++ [(n, t)])) /\
  ((e = None /\ Forall (fun p => In (snd p) permitted) l) \/
   (e = Some ValueError /\ ~ Forall (fun p => In (snd p) permitted) l)).
Proof. exact add_list_spec. Qed.
Print Assumptions C61_add_list.

(** A signal given by its name gets one of its types, "item" if it can, and draws
    no warning about its type; this fails exactly for unknown names. *)
Theorem C61_by_name : forall pick, (forall l, l <> [] -> In (pick l) l) -> forall s n, one_story s ->
  match signal_dict pick s n with
  | Ok (m, t) => m = n /\ has_type s n t /\ (has_type s n (str "item") -> t = str "item") /\ mismatch s (m, t) = false
  | Err e => e = DraftsmanError /\ ~ known s n
  end.
Proof. exact dict_spec. Qed.
Print Assumptions C61_by_name.

(** The warning is given exactly for known names with another type. *)
Theorem C61_mismatch : forall s n t, one_story s -> (mismatch s (n, t) = true <-> known s n /\ ~ has_type s n t).
Proof. exact mismatch_spec. Qed.
Print Assumptions C61_mismatch.

(** Names in mappings. *)
Theorem C61_mapper : forall modules entities n,
  match get_mapper_type modules entities n with
  | Ok t => (t = str "item" /\ In n modules) \/ (t = str "entity" /\ In n entities /\ ~ In n modules)
  | Err e => e = DraftsmanError /\ ~ In n modules /\ ~ In n entities
  end.
Proof. exact mapper_spec. Qed.
Print Assumptions C61_mapper.

Definition ex_groups : table group := [(str "g", mkG (Some (str "g")) (Some (str "a")))].
Definition ex_subgroups : table subgroup := [(str "other", mkS (Some (str "other")) (Some (str "b")) (Some (str "g")))].
Definition pr (n t o : string) : pystr * proto := (str n, mkP (Some (str n)) (Some (str t)) (Some (str o)) None None).
Definition ex_cats : list (pystr * list (pystr * proto)) :=
  [(str "virtual", [pr "signal-B" "virtual-signal" "b"; pr "signal-A" "virtual-signal" "a"]);
   (str "item", [pr "pipe" "item" "p"]); (str "recipe", [pr "pipe" "recipe" "p"]);
   (str "fluid", [(str "steam", mkP (Some (str "steam")) (Some (str "fluid")) (Some (str "s")) (Some (str "other")) None)])].

Example C61_example : exists s s',
  proper_data ex_cats /\ extract_signals [] ex_subgroups ex_groups ex_cats = Ok s /\
  dget pystr_eqb (sg_lists s) (str "virtual") = Some [str "signal-A"; str "signal-B"] /\
  dget pystr_eqb (sg_types s) (str "pipe") = Some [str "item"; str "recipe"] /\
  signal_dict (fun l => last l []) s (str "pipe") = Ok (str "pipe", str "item") /\
  signal_dict (fun l => last l []) s (str "signal-B") = Ok (str "signal-B", str "virtual") /\
  signal_dict (fun l => last l []) s (str "signal-C") = Err DraftsmanError /\
  mismatch s (str "steam", str "item") = true /\
  add_signal s (str "signal-C") (str "virtual") = Ok s' /\
  signal_dict (fun l => last l []) s' (str "signal-C") = Ok (str "signal-C", str "virtual") /\
  add_signal s (str "signal-C") (str "tile") = Err ValueError.
Proof.
  do 2 eexists. split.
  - repeat constructor; cbn; tauto.
  - split; [reflexivity|]. do 8 (split; [reflexivity|]). reflexivity.
Qed.

(** "Every signal is listed once": not when it is added twice, nor when two
    categories of one type offer it; and the given type of a name with several is not determined. *)
Theorem C61_once_refuted :
  (exists s s' , one_story s /\ listed_once s /\ add_signal s (str "a") (str "item") = Ok s' /\
     dget pystr_eqb (sg_lists s') (str "item") = Some [str "a"; str "a"]) /\
  (exists cats s, proper_data cats /\ extract_signals [] ex_subgroups ex_groups cats = Ok s /\
     dget pystr_eqb (sg_lists s) (str "item") = Some [str "pipe"; str "pipe"]) /\
  (exists s n pick pick', one_story s /\ (forall l, l <> [] -> In (pick l) l) /\ (forall l, l <> [] -> In (pick' l) l) /\
     signal_dict pick s n <> signal_dict pick' s n).
Proof.
  assert (S0 : one_story (mkSig [] [] [])).
  { split; [|split; [|split]].
    - intros n t. split; intros (l & E & _); discriminate.
    - intros n. split; [intros (x & E); discriminate|intros (t & l & E & _); discriminate].
    - discriminate.
    - intros n t (l & E & _). discriminate. }
  assert (L0 : listed_once (mkSig [] [] [])) by discriminate.
  split; [|split].
  - assert (E : add_signal (mkSig [] [] []) (str "a") (str "item") =
      Ok (mkSig [(str "a", (Some (str "a"), Some (str "item")))] [(str "a", [str "item"])] [(str "item", [str "a"])])) by reflexivity.
    eexists. eexists. split; [exact (add_story _ _ _ _ S0 E)|]. split.
    + apply (add_once _ _ _ _ S0 L0 E). intros (l & F & _). discriminate.
    + split; reflexivity.
  - exists [(str "item", [pr "pipe" "item" "p"]); (str "item", [pr "pipe" "tool" "p"])]. eexists.
    split; [repeat constructor; cbn; tauto|]. split; reflexivity.
  - destruct (add_ok (mkSig [] [] []) (str "a") (str "fluid")) as [_ H]. destruct H as (s1 & E); [cbn; tauto|].
    destruct (add_ok s1 (str "a") (str "recipe")) as [_ H]. destruct H as (s2 & F); [cbn; tauto|].
    exists s2, (str "a"), (fun l => hd [] l), (fun l => last l []).
    split; [exact (add_story _ _ _ _ (add_story _ _ _ _ S0 E) F)|]. split; [|split].
    + intros [|x l] N; [congruence|left; reflexivity].
    + intros l N. destruct (exists_last N) as (l' & x & ->). rewrite last_last. apply in_or_app. right. left. reflexivity.
    + injection E as <-. injection F as <-. vm_compute. discriminate.
Qed.
Print Assumptions C61_once_refuted.
