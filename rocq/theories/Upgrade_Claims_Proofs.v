(** Witnesses and consequences for [Upgrade_Properties]. *)
From Coq Require Import ZArith String List Bool Lia.
From Verif Require Import Common Dict Assign_Model Upgrade_Model Upgrade_Spec Upgrade_Proofs.
Import ListNotations.

(** The world with other values of ["hidden"]. *)
Definition rehide (h : pystr -> bool) (W : world) : world :=
  {| entities := entities W; items := map (fun e => (fst e, {| i_flags := i_flags (snd e); i_hidden := h (fst e) |})) (items W) |}.
Lemma rehide_get : forall h W n, dget pystr_eqb (items (rehide h W)) n =
  match dget pystr_eqb (items W) n with Some i => Some {| i_flags := i_flags i; i_hidden := h n |} | None => None end.
Proof.
  intros h [es is] n. cbn [items rehide]. induction is as [|[k i] is IH]; [reflexivity|]. cbn [map dget fst snd].
  destruct (pystr_eqb k n) eqn:E; [|exact IH]. apply pystr_eqb_eq in E. subst. reflexivity.
Qed.
Lemma rehide_unrecognised : forall h W m, unrecognised (rehide h W) m = unrecognised W m.
Proof.
  intros h W [m|]; [|reflexivity]. unfold unrecognised. rewrite rehide_get. cbn [entities rehide].
  destruct (dget pystr_eqb (entities W) (m_name m)), (dget pystr_eqb (items W) (m_name m)); reflexivity.
Qed.
Lemma rehide_hidden : forall h W ns, hidden (rehide h W) ns = hidden W ns.
Proof.
  intros h W. induction ns as [|n ns IH]; [reflexivity|]. cbn [hidden]. rewrite rehide_get.
  destruct (dget pystr_eqb (items W) n) as [i|]; [|reflexivity]. cbn [i_flags]. rewrite IH. reflexivity.
Qed.
Lemma rehide_check : forall h W f t, check_pair (rehide h W) f t = check_pair W f t.
Proof.
  intros h W f t. unfold check_pair. rewrite !rehide_unrecognised.
  destruct (unrecognised W f ++ unrecognised W t); [|reflexivity]. destruct f as [a|], t as [b|]; try reflexivity.
  destruct (mid_eqb a b); [reflexivity|]. destruct (negb _); [reflexivity|]. destruct (m_type a); [|reflexivity].
  cbn [entities rehide]. destruct (dget pystr_eqb (entities W) (m_name a)) as [x|]; [|reflexivity].
  destruct (dget pystr_eqb (entities W) (m_name b)) as [y|]; [|reflexivity].
  unfold check_entities. destruct (mem _ _); [reflexivity|]. destruct (e_minable x) as [|rs r]; [reflexivity|].
  destruct (mined rs r) as [ns|]; [|reflexivity]. cbn [bind]. rewrite rehide_hidden. reflexivity.
Qed.

Lemma productless : forall W a b x, a <> b -> m_type a = Entity -> m_type b = Entity -> entity_of W (m_name a) x -> known W (m_name b) ->
  ~ In (str "not-upgradable") (e_flags x) -> e_minable x = Mined None None -> check_pair W (Some a) (Some b) = Err KeyError.
Proof.
  intros W a b x N A B X Y F M. apply check_raises. split; [reflexivity|]. eapply unreadable; eauto.
  intros [R|R|ns R _|ns n r R _ _]; [contradiction|congruence| |]; inversion R; congruence.
Qed.
Lemma fluid_product : forall W a b x n, a <> b -> m_type a = Entity -> m_type b = Entity -> entity_of W (m_name a) x -> known W (m_name b) ->
  ~ In (str "not-upgradable") (e_flags x) -> products x [n] -> (forall i, ~ item_of W n i) -> check_pair W (Some a) (Some b) = Err KeyError.
Proof.
  intros W a b x n N A B X Y F P I. apply check_raises. split; [reflexivity|]. eapply unreadable; eauto.
  intros [R|R|ns R S|ns m r R S C].
  - contradiction.
  - inversion P; congruence.
  - rewrite (products_unique _ _ _ R P) in S. inversion S as [|? ? (i & J & _) _]; subst. eapply I, J.
  - pose proof (products_unique _ _ _ R P) as E. destruct ns as [|k ns]; cbn in E.
    + injection E as -> ->. destruct C as (i & J & _). eapply I, J.
    + injection E as -> E. destruct ns; discriminate E.
Qed.
Lemma item_as_entity : forall W a b i, a <> b -> m_type a = Entity -> m_type b = Entity -> item_of W (m_name a) i ->
  (forall x, ~ entity_of W (m_name a) x) -> known W (m_name b) -> check_pair W (Some a) (Some b) = Err KeyError.
Proof.
  intros W a b i N A B I E K. apply check_raises. split; [reflexivity|]. apply no_entity; auto. right. eauto.
Qed.

(** An excerpt of the data of the game. *)
Definition box (flags : list pystr) (m : mining) (t : string) (b : Z) (g : option Z) : entity :=
  {| e_flags := flags; e_minable := m; e_type := Some (str t); e_box := Some b; e_mask := None; e_group := g |}.
Definition excerpt : world := {|
  entities := [
    (str "transport-belt", box [str "player-creation"] (Mined None (Some (str "transport-belt"))) "transport-belt" 1 (Some 1%Z));
    (str "fast-transport-belt", box [str "player-creation"] (Mined None (Some (str "fast-transport-belt"))) "transport-belt" 1 (Some 1%Z));
    (str "loader", box [] (Mined None (Some (str "loader"))) "loader" 2 (Some 1%Z));
    (str "fast-loader", box [] (Mined None (Some (str "fast-loader"))) "loader" 2 (Some 1%Z));
    (str "cargo-wagon", box [] (Mined None (Some (str "cargo-wagon"))) "cargo-wagon" 3 None);
    (str "fluid-wagon", box [] (Mined None (Some (str "fluid-wagon"))) "fluid-wagon" 3 None);
    (str "small-worm-turret", box [] Unminable "turret" 4 None);
    (str "crash-site-chest-1", box [] (Mined None None) "container" 5 (Some 2%Z));
    (str "wooden-chest", box [] (Mined None (Some (str "wooden-chest"))) "container" 5 (Some 2%Z))];
  items := [
    (str "transport-belt", {| i_flags := []; i_hidden := false |}); (str "fast-transport-belt", {| i_flags := []; i_hidden := false |});
    (str "loader", {| i_flags := []; i_hidden := true |}); (str "fast-loader", {| i_flags := []; i_hidden := true |});
    (str "cargo-wagon", {| i_flags := []; i_hidden := false |}); (str "fluid-wagon", {| i_flags := []; i_hidden := false |});
    (str "wooden-chest", {| i_flags := []; i_hidden := false |}); (str "iron-plate", {| i_flags := []; i_hidden := false |})] |}.
Definition ent (n : string) : option mid := Some {| m_name := str n; m_type := Entity; m_extra := 0 |}.

Lemma loaders : exists W a b x i, entity_of W (m_name a) x /\ products x [m_name a] /\ item_of W (m_name a) i /\ i_hidden i = true /\
  check_pair W (Some a) (Some b) = Ok None.
Proof.
  exists excerpt, {| m_name := str "loader"; m_type := Entity; m_extra := 0 |}, {| m_name := str "fast-loader"; m_type := Entity; m_extra := 0 |}.
  eexists _, _. split; [reflexivity|]. split; [apply single; reflexivity|]. split; [reflexivity|]. split; reflexivity.
Qed.
(** The target: nothing builds it. *)
Lemma unbuildable : exists W a b y, entity_of W (m_name b) y /\ e_minable y = Unminable /\ (forall i, ~ item_of W (m_name b) i) /\
  check_pair W (Some a) (Some b) = Ok None.
Proof.
  exists {| entities := [(str "a", box [] (Mined None (Some (str "i"))) "container" 1 None); (str "b", box [] Unminable "container" 1 None)];
            items := [(str "i", {| i_flags := []; i_hidden := false |})] |},
    {| m_name := str "a"; m_type := Entity; m_extra := 0 |}, {| m_name := str "b"; m_type := Entity; m_extra := 0 |}.
  eexists. split; [reflexivity|]. split; [reflexivity|]. split; [intros i H; discriminate H|reflexivity].
Qed.
Lemma lenient_silent : forall W md ms, md = MNone \/ md = MMinimum -> ensure_mappers W md ms = Ok [].
Proof. intros W md [ms|] [-> | ->]; reflexivity. Qed.
