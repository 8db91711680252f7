(** Proofs about groups, subgroups and items. *)
From Coq Require Import ZArith NArith List Bool String Lia Permutation Sorting.Sorted.
From Verif Require Import Common Dict Order Ranking_Spec Ranking_Proofs Shelf_Model Shelf_Spec.
Import ListNotations.
Local Open Scope string_scope.
Local Open Scope list_scope.

Lemma sget {V} d k (v : V) k' : dget pystr_eqb (dset pystr_eqb d k v) k' = if pystr_eqb k k' then Some v else dget pystr_eqb d k'.
Proof. apply dget_dset. exact pystr_eqb_eq. Qed.
Lemma key_ordered : ordered key_cmp.
Proof. apply pair_ordered; [exact bool_ordered|]. apply pair_ordered; exact str_ordered. Qed.
Lemma key_lt a b : key_cmp (key_of (fst a) (snd a)) (key_of (fst b) (snd b)) = Lt <-> place_lt a b.
Proof.
  destruct a as [[o|] n], b as [[o'|] n']; unfold place_lt, key_cmp, key_of, pair_cmp; cbn [fst snd bool_cmp order_lt].
  - rewrite !text_lt_cmp. destruct (str_cmp o o') eqn:E.
    + apply (cmp_eq _ str_ordered) in E. subst. split; [intros H; right; split; [reflexivity|exact H]|].
      intros [H|[_ H]]; [congruence|exact H].
    + split; [intros _; left; reflexivity|reflexivity].
    + split; [discriminate|]. intros [H|[H _]]; [discriminate|]. injection H as ->. rewrite (cmp_refl _ str_ordered) in E. discriminate.
  - split; [left; exact Logic.I|reflexivity].
  - split; [discriminate|]. intros [[]|[H _]]. discriminate.
  - cbn. rewrite text_lt_cmp. split; [intros H; right; split; [reflexivity|exact H]|]. intros [[]|[_ H]]. exact H.
Qed.
Lemma key_inj a b : key_of (fst a) (snd a) = key_of (fst b) (snd b) -> a = b.
Proof. destruct a as [[o|] n], b as [[o'|] n']; cbn; congruence. Qed.

(** Sorted by distinct keys. *)
Lemma sort_strict {A} (f : A -> place) (l : list A) : NoDup (map f l) ->
  let s := stable_sort (fun x => key_of (fst (f x)) (snd (f x))) key_cmp l in
  Permutation s l /\ StronglySorted (fun a b => place_lt (f a) (f b)) s.
Proof.
  intros D. cbn zeta. set (key := fun x => key_of (fst (f x)) (snd (f x))). set (s := stable_sort key key_cmp l).
  assert (P : Permutation s l) by apply stable_sort_perm. split; [exact P|].
  assert (N : NoDup (map f s)) by (apply (Permutation_NoDup (l := map f l)); [apply Permutation_map; symmetry; exact P|exact D]).
  pose proof (stable_sort_sorted key key_cmp key_ordered l) as S. fold s in S. clearbody s. clear P D l.
  induction S as [|x s S IH F]; [constructor|]. cbn in N. apply NoDup_cons_iff in N as [N N'].
  constructor; [exact (IH N')|]. rewrite Forall_forall in *. intros y I. specialize (F y I). unfold le_key in F.
  destruct (key_cmp (key x) (key y)) eqn:E; [|apply key_lt; exact E|congruence].
  apply (cmp_eq _ key_ordered) in E. apply key_inj in E. exfalso. apply N. rewrite E. apply in_map. exact I.
Qed.
Lemma NoDup_of_map {A B C} (f : A -> B) (g : A -> C) l : (forall a b, f a = f b -> g a = g b) -> NoDup (map g l) -> NoDup (map f l).
Proof.
  intros H. induction l as [|x l IH]; cbn; intros D; [constructor|]. apply NoDup_cons_iff in D as [N D]. constructor; [|exact (IH D)].
  intros I. apply N. apply in_map_iff in I as (y & E & I). apply in_map_iff. exists y. split; [apply H; exact E|exact I].
Qed.
Lemma sort_groups_spec l : NoDup (map g_name l) ->
  Permutation (sort_groups l) l /\ StronglySorted (fun a b => place_lt (g_place a) (g_place b)) (sort_groups l).
Proof.
  intros D. apply (sort_strict g_place l). apply (NoDup_of_map g_place g_name); [|exact D]. unfold g_place. congruence.
Qed.
Lemma sort_subs_spec l : NoDup (map s_name l) ->
  Permutation (sort_subs l) l /\ StronglySorted (fun a b => place_lt (s_place a) (s_place b)) (sort_subs l).
Proof.
  intros D. apply (sort_strict s_place l). apply (NoDup_of_map s_place s_name); [|exact D]. unfold s_place. congruence.
Qed.
Lemma sort_items_spec l : NoDup (map i_name l) ->
  Permutation (sort_items l) l /\ StronglySorted (fun a b => place_lt (i_place a) (i_place b)) (sort_items l).
Proof.
  intros D. apply (sort_strict i_place l). apply (NoDup_of_map i_place i_name); [|exact D]. unfold i_place. congruence.
Qed.

(** ** Dictionaries of things under their names. *)
Lemma dset_fresh {V} (d : sdict V) k v : ~ In k (map fst d) -> dset pystr_eqb d k v = d ++ [(k, v)].
Proof.
  induction d as [|[k' w] d IH]; cbn; intros N; [reflexivity|]. destruct (pystr_eqb k' k) eqn:E.
  - apply pystr_eqb_eq in E. exfalso. apply N. left. exact E.
  - rewrite IH; [reflexivity|]. intros I. apply N. right. exact I.
Qed.
Lemma dict_of_fresh {V} (l : list (pystr * V)) : forall d, NoDup (map fst d ++ map fst l) ->
  fold_left (fun d kv => dset pystr_eqb d (fst kv) (snd kv)) l d = d ++ l.
Proof.
  induction l as [|[k v] l IH]; intros d D; cbn [fold_left fst snd]; [rewrite app_nil_r; reflexivity|].
  cbn in D. pose proof (NoDup_remove_2 _ _ _ D) as N. rewrite dset_fresh by (intros I; apply N, in_or_app; left; exact I).
  rewrite IH.
  - rewrite <- app_assoc. reflexivity.
  - rewrite map_app. cbn. rewrite <- app_assoc. exact D.
Qed.
Lemma ordered_dict_eq {A} (name : A -> pystr) l : NoDup (map name l) -> ordered_dict name l = map (fun x => (name x, x)) l.
Proof.
  intros D. unfold ordered_dict, dict_of. rewrite dict_of_fresh; [reflexivity|]. cbn. rewrite map_map. exact D.
Qed.
Lemma combine_names {A} (name : A -> pystr) l : map (fun x => (name x, x)) l = combine (map name l) l.
Proof. induction l as [|x l IH]; cbn; [reflexivity|]. f_equal. exact IH. Qed.
Lemma fold_flat {A B C} (f : C -> B -> C) (h : A -> list B) l : forall c,
  fold_left (fun c a => fold_left f (h a) c) l c = fold_left f (flat_map h l) c.
Proof. induction l as [|a l IH]; intros c; cbn; [reflexivity|]. rewrite fold_left_app. apply IH. Qed.

(** ** Placing. *)
Lemma empty_dict {A V} (name : A -> pystr) (l : list A) : NoDup (map name l) ->
  dict_of pystr_eqb (map (fun x => (name x, @nil V)) l) = map (fun x => (name x, [])) l.
Proof. intros D. unfold dict_of. rewrite dict_of_fresh; [reflexivity|]. cbn. rewrite map_map. exact D. Qed.
Lemma get_empty {A V} (name : A -> pystr) (l : list A) k : dget pystr_eqb (map (fun x => (name x, @nil V)) l) k = if existsb (fun x => pystr_eqb (name x) k) l then Some [] else None.
Proof. induction l as [|x l IH]; cbn; [reflexivity|]. destruct (pystr_eqb (name x) k); [reflexivity|exact IH]. Qed.
Definition of_group (g : pystr) (s : sub) : bool := match s_group s with Some g' => pystr_eqb g' g | None => false end.
Definition of_sub (s : pystr) (i : item) : bool := pystr_eqb (wanted i) s.
Lemma place_subs_spec subs : forall gi,
  match place_subs subs gi with
  | Ok gi' => (forall g, dget pystr_eqb gi' g = option_map (fun l => l ++ filter (of_group g) subs) (dget pystr_eqb gi g)) /\
      (forall s, In s subs -> exists g, s_group s = Some g /\ dget pystr_eqb gi g <> None)
  | Err e => e = KeyError /\ exists s, In s subs /\ forall g, s_group s = Some g -> dget pystr_eqb gi g = None
  end.
Proof.
  induction subs as [|s subs IH]; intros gi; cbn [place_subs].
  - split; [|intros s []]. intros g. destruct (dget pystr_eqb gi g); cbn; [rewrite app_nil_r|]; reflexivity.
  - destruct (s_group s) as [g|] eqn:G; [|split; [reflexivity|]; exists s; split; [left; reflexivity|congruence]].
    destruct (dget pystr_eqb gi g) as [l|] eqn:L.
    + specialize (IH (dset pystr_eqb gi g (l ++ [s]))). destruct (place_subs subs _) as [gi'|e].
      * destruct IH as [A B]. split.
        -- intros g'. rewrite A, sget. cbn [filter]. unfold of_group at 2. rewrite G. destruct (pystr_eqb g g') eqn:E.
           ++ apply pystr_eqb_eq in E. rewrite <- E, L. cbn. rewrite <- app_assoc. reflexivity.
           ++ reflexivity.
        -- intros s' [<-|I]; [exists g; split; [exact G|congruence]|]. destruct (B s' I) as (g' & E & N). exists g'. split; [exact E|].
           rewrite sget in N. destruct (pystr_eqb g g') eqn:X; [|exact N]. apply pystr_eqb_eq in X. congruence.
      * destruct IH as [-> (s' & I & N)]. split; [reflexivity|]. exists s'. split; [right; exact I|]. intros g' E.
        specialize (N g' E). rewrite sget in N. destruct (pystr_eqb g g'); [discriminate|exact N].
    + split; [reflexivity|]. exists s. split; [left; reflexivity|]. intros g' E. congruence.
Qed.
Lemma place_items_spec items : forall si,
  match place_items items si with
  | Ok si' => (forall s, dget pystr_eqb si' s = option_map (fun l => l ++ map fill (filter (of_sub s) items)) (dget pystr_eqb si s)) /\
      (forall i, In i items -> dget pystr_eqb si (wanted i) <> None)
  | Err e => e = KeyError /\ exists i, In i items /\ dget pystr_eqb si (wanted i) = None
  end.
Proof.
  induction items as [|i items IH]; intros si; cbn [place_items].
  - split; [|intros i []]. intros s. destruct (dget pystr_eqb si s); cbn; [rewrite app_nil_r|]; reflexivity.
  - fold (wanted i). destruct (dget pystr_eqb si (wanted i)) as [l|] eqn:L.
    + specialize (IH (dset pystr_eqb si (wanted i) (l ++ [fill i]))). destruct (place_items items _) as [si'|e].
      * destruct IH as [A B]. split.
        -- intros s. rewrite A, sget. cbn [filter]. unfold of_sub at 2. destruct (pystr_eqb (wanted i) s) eqn:E.
           ++ apply pystr_eqb_eq in E. rewrite <- E, L. cbn. rewrite <- app_assoc. reflexivity.
           ++ reflexivity.
        -- intros i' [<-|I]; [congruence|]. specialize (B i' I). rewrite sget in B.
           destruct (pystr_eqb (wanted i) (wanted i')) eqn:X; [|exact B]. apply pystr_eqb_eq in X. congruence.
      * destruct IH as [-> (i' & I & N)]. split; [reflexivity|]. exists i'. split; [right; exact I|].
        rewrite sget in N. destruct (pystr_eqb (wanted i) (wanted i')); [discriminate|exact N].
    + split; [reflexivity|]. exists i. split; [left; reflexivity|exact L].
Qed.

(** ** The whole. *)
Lemma existsb_name {A} (name : A -> pystr) l k : existsb (fun x => pystr_eqb (name x) k) l = true <-> exists x, In x l /\ name x = k.
Proof.
  rewrite existsb_exists. split; intros (x & I & E); exists x; (split; [exact I|]); apply pystr_eqb_eq; exact E.
Qed.
Definition items_in (items : list item) (s : sub) : list item := sort_items (map fill (filter (of_sub (s_name s)) items)).
Definition subs_in (subs : list sub) (g : grp) : list sub := sort_subs (filter (of_group (g_name g)) subs).
Definition line_up (groups : list grp) (subs : list sub) (items : list item) : list item :=
  flat_map (fun g => flat_map (items_in items) (subs_in subs g)) (sort_groups groups).

Lemma NoDup_filter_map {A B} (f : A -> B) p l : NoDup (map f l) -> NoDup (map f (filter p l)).
Proof.
  induction l as [|x l IH]; cbn; intros D; [constructor|]. apply NoDup_cons_iff in D as [N D]. destruct (p x); [|exact (IH D)].
  cbn. constructor; [|exact (IH D)]. intros I. apply N. apply in_map_iff in I as (y & E & I). apply filter_In in I as [I _].
  rewrite <- E. apply in_map. exact I.
Qed.
Lemma fill_name i : i_name (fill i) = i_name i.
Proof. destruct i as [n [o|] s]; reflexivity. Qed.
Lemma fill_wanted i : wanted (fill i) = wanted i.
Proof. destruct i as [n [o|] s]; reflexivity. Qed.
Lemma fill_filled i : filled i (fill i).
Proof. destruct i as [n [o|] s]; constructor. Qed.
Lemma map_fill_names l : map i_name (map fill l) = map i_name l.
Proof. rewrite map_map. apply map_ext. exact fill_name. Qed.
Lemma items_in_spec items s : NoDup (map i_name items) ->
  Permutation (items_in items s) (map fill (filter (of_sub (s_name s)) items)) /\
  StronglySorted (fun a b => place_lt (i_place a) (i_place b)) (items_in items s) /\ NoDup (map i_name (items_in items s)).
Proof.
  intros D. assert (N : NoDup (map i_name (map fill (filter (of_sub (s_name s)) items)))) by (rewrite map_fill_names; apply NoDup_filter_map; exact D).
  destruct (sort_items_spec _ N) as [P S]. split; [exact P|]. split; [exact S|].
  apply (Permutation_NoDup (l := map i_name (map fill (filter (of_sub (s_name s)) items)))); [|exact N].
  apply Permutation_map. symmetry. exact P.
Qed.
Lemma subs_in_spec subs g : NoDup (map s_name subs) ->
  Permutation (subs_in subs g) (filter (of_group (g_name g)) subs) /\
  StronglySorted (fun a b => place_lt (s_place a) (s_place b)) (subs_in subs g) /\ NoDup (map s_name (subs_in subs g)).
Proof.
  intros D. assert (N : NoDup (map s_name (filter (of_group (g_name g)) subs))) by (apply NoDup_filter_map; exact D).
  destruct (sort_subs_spec _ N) as [P S]. split; [exact P|]. split; [exact S|].
  apply (Permutation_NoDup (l := map s_name (filter (of_group (g_name g)) subs))); [|exact N].
  apply Permutation_map. symmetry. exact P.
Qed.
(** Putting the classes one after another rearranges the list. *)
Lemma classes {A K} (f : K -> A -> bool) (ks : list K) (l : list A) : NoDup ks ->
  (forall k k' x, f k x = true -> f k' x = true -> k = k') -> (forall x, In x l -> exists k, In k ks /\ f k x = true) ->
  Permutation (flat_map (fun k => filter (f k) l) ks) l.
Proof.
  intros D F. induction l as [|x l IH]; intros C.
  - assert (flat_map (fun k => filter (f k) (@nil A)) ks = []) as ->; [|reflexivity]. clear. induction ks; [reflexivity|exact IHks].
  - destruct (C x (or_introl eq_refl)) as (k & I & E). destruct (in_split _ _ I) as (a & b & ->).
    assert (N : forall k', In k' (a ++ b) -> f k' x = false).
    { intros k' J. destruct (f k' x) eqn:X; [|reflexivity]. exfalso. apply NoDup_remove_2 in D. apply D. rewrite <- (F _ _ _ X E). exact J. }
    specialize (IH (fun y J => C y (or_intror J))). rewrite flat_map_app. cbn [flat_map].
    assert (G : forall c, (forall k', In k' c -> f k' x = false) -> flat_map (fun k => filter (f k) (x :: l)) c = flat_map (fun k => filter (f k) l) c).
    { intros c H. induction c as [|k' c IHc]; [reflexivity|]. cbn [flat_map]. rewrite IHc by (intros k2 J; apply H; right; exact J).
      cbn [filter]. rewrite (H k' (or_introl eq_refl)). reflexivity. }
    rewrite (G a) by (intros k' J; apply N, in_or_app; left; exact J). rewrite (G b) by (intros k' J; apply N, in_or_app; right; exact J).
    cbn [filter]. rewrite E. cbn. rewrite flat_map_app in IH. cbn [flat_map] in IH.
    etransitivity; [symmetry; apply Permutation_middle|]. constructor. exact IH.
Qed.
Lemma flat_perm {A B} (f g : A -> list B) l : (forall x, In x l -> Permutation (f x) (g x)) -> Permutation (flat_map f l) (flat_map g l).
Proof.
  induction l as [|x l IH]; cbn; intros H; [constructor|]. apply Permutation_app; [apply H; left; reflexivity|].
  apply IH. intros y I. apply H. right. exact I.
Qed.
Lemma perm_flat {A B} (f : A -> list B) l l' : Permutation l l' -> Permutation (flat_map f l) (flat_map f l').
Proof.
  intros P. induction P; cbn.
  - constructor.
  - apply Permutation_app_head. assumption.
  - rewrite !app_assoc. apply Permutation_app_tail. apply Permutation_app_comm.
  - etransitivity; eassumption.
Qed.
Lemma flat_flat {A B C} (f : A -> list B) (g : B -> list C) l : flat_map (fun a => flat_map g (f a)) l = flat_map g (flat_map f l).
Proof. induction l as [|a l IH]; cbn; [reflexivity|]. rewrite flat_map_app, IH. reflexivity. Qed.
Lemma name_inj {A B} (f : A -> B) l x y : NoDup (map f l) -> In x l -> In y l -> f x = f y -> x = y.
Proof.
  induction l as [|z l IH]; cbn; intros D I J E; [destruct I|]. apply NoDup_cons_iff in D as [N D].
  destruct I as [->|I], J as [->|J]; [reflexivity| | |exact (IH D I J E)].
  - exfalso. apply N. rewrite E. apply in_map. exact J.
  - exfalso. apply N. rewrite <- E. apply in_map. exact I.
Qed.
Lemma NoDup_unmap {A B} (f : A -> B) l : NoDup (map f l) -> NoDup l.
Proof. apply NoDup_map_inv. Qed.

Section Whole.
  Variable groups : list grp.
  Variable subs : list sub.
  Variable items : list item.
  Hypothesis U : unique groups subs items.
  Hypothesis C : complete groups subs items.
  Lemma all_subs : Permutation (flat_map (subs_in subs) (sort_groups groups)) subs.
  Proof.
    destruct U as (Ug & Us & _), C as [Cs _].
    etransitivity; [apply (flat_perm (subs_in subs) (fun g => filter (of_group (g_name g)) subs)); intros g _; apply subs_in_spec; exact Us|].
    etransitivity; [apply perm_flat, sort_groups_spec; exact Ug|].
    rewrite (flat_map_concat_map _ groups), <- (map_map g_name (fun n => filter (of_group n) subs)), <- flat_map_concat_map.
    apply (classes of_group); [exact Ug| |].
    - intros k k' x. unfold of_group. destruct (s_group x); [|discriminate]. intros E F. apply pystr_eqb_eq in E, F. congruence.
    - intros s I. destruct (Cs s I) as (g & J & E). exists (g_name g). split; [apply in_map; exact J|]. unfold of_group. rewrite E. apply pystr_eqb_refl.
  Qed.
  Lemma all_items : Permutation (line_up groups subs items) (map fill items).
  Proof.
    destruct U as (_ & Us & Ui), C as [_ Ci]. unfold line_up. rewrite flat_flat.
    etransitivity; [apply perm_flat, all_subs|].
    etransitivity; [apply (flat_perm (items_in items) (fun s => map fill (filter (of_sub (s_name s)) items))); intros s _; apply items_in_spec; exact Ui|].
    assert (E : forall l, flat_map (fun s => map fill (filter (of_sub (s_name s)) items)) l = map fill (flat_map (fun n => filter (of_sub n) items) (map s_name l))).
    { induction l as [|s l IH]; cbn; [reflexivity|]. rewrite map_app, IH. reflexivity. }
    rewrite E. apply Permutation_map. apply (classes of_sub); [exact Us| |].
    - intros k k' x E1 E2. apply pystr_eqb_eq in E1, E2. congruence.
    - intros i I. destruct (Ci i I) as (s & J & F). exists (s_name s). split; [apply in_map; exact J|]. unfold of_sub. rewrite F. apply pystr_eqb_refl.
  Qed.
  Lemma line_up_names : NoDup (map i_name (line_up groups subs items)).
  Proof.
    destruct U as (_ & _ & Ui). apply (Permutation_NoDup (l := map i_name (map fill items))).
    - apply Permutation_map. symmetry. exact all_items.
    - rewrite map_fill_names. exact Ui.
  Qed.
  (** An item of the line stands where it was put. *)
  Lemma item_rank g s i : In g groups -> In s (subs_in subs g) -> In i (items_in items s) ->
    ranked groups subs i (mkRank (g_place g) (s_place s) (i_place i)).
  Proof.
    destruct U as (_ & Us & Ui). intros G S I.
    apply (Permutation_in _ (proj1 (subs_in_spec subs g Us))) in S. apply filter_In in S as [S F].
    apply (Permutation_in _ (proj1 (items_in_spec items s Ui))) in I. apply in_map_iff in I as (i' & <- & I). apply filter_In in I as [I J].
    exists s, g. unfold of_group in F. destruct (s_group s) as [n|] eqn:E; [|discriminate]. apply pystr_eqb_eq in F. subst n.
    apply pystr_eqb_eq in J. rewrite fill_wanted. auto.
  Qed.
  Lemma rank_fun i r r' : ranked groups subs i r -> ranked groups subs i r' -> r = r'.
  Proof.
    destruct U as (Ug & Us & _). intros (s & g & S & N & G & E & ->) (s' & g' & S' & N' & G' & E' & ->).
    assert (s = s') as <- by (apply (name_inj s_name subs); [exact Us|exact S|exact S'|congruence]).
    assert (g = g') as <- by (apply (name_inj g_name groups); [exact Ug|exact G|exact G'|congruence]). reflexivity.
  Qed.
End Whole.

Lemma ss_flat {A B} (P : A -> A -> Prop) (R : B -> B -> Prop) (f : A -> list B) l : StronglySorted P l ->
  (forall a, In a l -> StronglySorted R (f a)) ->
  (forall a b x y, In a l -> In b l -> P a b -> In x (f a) -> In y (f b) -> R x y) -> StronglySorted R (flat_map f l).
Proof.
  induction 1 as [|a l S IH F]; intros H1 H2; cbn; [constructor|].
  assert (X : StronglySorted R (flat_map f l)).
  { apply IH; [intros b I; apply H1; right; exact I|]. intros b c x y I J. apply H2; right; assumption. }
  assert (Y : forall x y, In x (f a) -> In y (flat_map f l) -> R x y).
  { intros x y I J. apply in_flat_map in J as (b & J & K). rewrite Forall_forall in F.
    exact (H2 a b x y (or_introl eq_refl) (or_intror J) (F b J) I K). }
  specialize (H1 a (or_introl eq_refl)). revert H1 Y. generalize (f a) as u. induction u as [|x u IHu]; intros S' Y; [exact X|].
  cbn. inversion S'; subst. constructor.
  - apply IHu; [assumption|]. intros z y I J. apply Y; [right; exact I|exact J].
  - apply Forall_app. split; [assumption|]. apply Forall_forall. intros y J. apply Y; [left; reflexivity|exact J].
Qed.
Lemma ss_in {A} (R R' : A -> A -> Prop) l : (forall a b, In a l -> In b l -> R a b -> R' a b) -> StronglySorted R l -> StronglySorted R' l.
Proof.
  intros H S. induction S as [|a l S IH F]; [constructor|]. constructor.
  - apply IH. intros x y I J. apply H; right; assumption.
  - rewrite Forall_forall in *. intros b I. apply H; [left; reflexivity|right; exact I|exact (F b I)].
Qed.
Lemma line_up_sorted groups subs items : unique groups subs items -> complete groups subs items ->
  StronglySorted (fun a b => forall r r', ranked groups subs a r -> ranked groups subs b r' -> before r r') (line_up groups subs items).
Proof.
  intros U C. pose proof U as (Ug & Us & Ui). destruct (sort_groups_spec groups Ug) as [Pg Sg].
  assert (R : forall g s i r, In g (sort_groups groups) -> In s (subs_in subs g) -> In i (items_in items s) ->
    ranked groups subs i r -> r = mkRank (g_place g) (s_place s) (i_place i)).
  { intros g s i r G S I H. apply (rank_fun groups subs items U i _ _ H).
    apply (item_rank groups subs items U); [exact (Permutation_in _ Pg G)|exact S|exact I]. }
  unfold line_up. apply (ss_flat _ _ _ _ Sg).
  - intros g G. apply (ss_flat (fun a b => place_lt (s_place a) (s_place b))).
    + apply (subs_in_spec subs g Us).
    + intros s S. apply (ss_in (fun a b => place_lt (i_place a) (i_place b))); [|apply (items_in_spec items s Ui)].
      intros a b Ia Ib L r r' H H'. rewrite (R g s a r G S Ia H), (R g s b r' G S Ib H'). right. split; [reflexivity|].
      right. split; [reflexivity|exact L].
    + intros s t a b S T L Ia Ib r r' H H'. rewrite (R g s a r G S Ia H), (R g t b r' G T Ib H'). right. split; [reflexivity|].
      left. exact L.
  - intros g h a b G H L Ia Ib r r' K K'. apply in_flat_map in Ia as (s & S & Ia). apply in_flat_map in Ib as (t & T & Ib).
    rewrite (R g s a r G S Ia K), (R h t b r' H T Ib K'). left. exact L.
Qed.

(** The result. *)
Lemma get_items_ok groups subs items o : unique groups subs items -> get_items groups subs items = Ok o ->
  complete groups subs items /\
  o = mkShelf (combine (map i_name (line_up groups subs items)) (line_up groups subs items))
        (map (fun s => (s_name s, (s, combine (map i_name (items_in items s)) (items_in items s)))) (sort_subs subs))
        (map (fun g => (g_name g, (g, combine (map s_name (subs_in subs g)) (subs_in subs g)))) (sort_groups groups)).
Proof.
  intros U E. pose proof U as (Ug & Us & Ui). unfold get_items in E. rewrite (empty_dict g_name groups Ug), (empty_dict s_name subs Us) in E.
  pose proof (place_subs_spec subs (map (fun g => (g_name g, [])) groups)) as S. destruct (place_subs subs _) as [gi|]; cbn [bind] in E; [|discriminate].
  destruct S as [S1 S2].
  pose proof (place_items_spec items (map (fun s => (s_name s, [])) subs)) as T. destruct (place_items items _) as [si|]; cbn [bind] in E; [|discriminate].
  destruct T as [T1 T2]. injection E as <-.
  assert (C : complete groups subs items).
  { split.
    - intros s I. destruct (S2 s I) as (n & F & N). rewrite get_empty in N. destruct (existsb (fun x => pystr_eqb (g_name x) n) groups) eqn:X; [|congruence].
      apply existsb_name in X as (g & J & X). exists g. split; [exact J|congruence].
    - intros i I. specialize (T2 i I). rewrite get_empty in T2. destruct (existsb (fun x => pystr_eqb (s_name x) (wanted i)) subs) eqn:X; [|congruence].
      apply existsb_name in X as (s & J & X). exists s. split; assumption. }
  split; [exact C|]. unfold shelve.
  assert (LG : forall g, In g groups -> list_of gi (g_name g) = filter (of_group (g_name g)) subs).
  { intros g I. unfold list_of. rewrite S1, get_empty. rewrite (proj2 (existsb_name g_name groups (g_name g))) by (exists g; split; [exact I|reflexivity]). reflexivity. }
  assert (LS : forall s, In s subs -> list_of si (s_name s) = map fill (filter (of_sub (s_name s)) items)).
  { intros s I. unfold list_of. rewrite T1, get_empty. rewrite (proj2 (existsb_name s_name subs (s_name s))) by (exists s; split; [exact I|reflexivity]). reflexivity. }
  assert (DS : forall g, In g groups -> ordered_dict s_name (sort_subs (list_of gi (g_name g))) = map (fun s => (s_name s, s)) (subs_in subs g)).
  { intros g I. rewrite (LG g I). apply ordered_dict_eq. apply (subs_in_spec subs g Us). }
  assert (DI : forall s, In s subs -> ordered_dict i_name (sort_items (list_of si (s_name s))) = map (fun i => (i_name i, i)) (items_in items s)).
  { intros s I. rewrite (LS s I). apply ordered_dict_eq. apply (items_in_spec items s Ui). }
  destruct (sort_groups_spec groups Ug) as [Pg _]. destruct (sort_subs_spec subs Us) as [Ps _].
  f_equal.
  - rewrite <- combine_names.
    transitivity (fold_left (fun d kv => dset pystr_eqb d (fst kv) (snd kv)) (map (fun i => (i_name i, i)) (line_up groups subs items)) []).
    + unfold line_up.
      assert (X : forall gs out, (forall g, In g gs -> In g groups) ->
        fold_left (fun out g => fold_left (fun out s => fold_left (fun out i => dset pystr_eqb out (i_name (snd i)) (snd i))
          (ordered_dict i_name (sort_items (list_of si (s_name (snd s))))) out) (ordered_dict s_name (sort_subs (list_of gi (g_name g)))) out) gs out =
        fold_left (fun d kv => dset pystr_eqb d (fst kv) (snd kv)) (map (fun i => (i_name i, i)) (flat_map (fun g => flat_map (items_in items) (subs_in subs g)) gs)) out).
      { induction gs as [|g gs IH]; intros out H; [reflexivity|]. cbn [fold_left flat_map]. rewrite map_app, fold_left_app.
        rewrite IH by (intros g' I; apply H; right; exact I). f_equal.
        rewrite (DS g (H g (or_introl eq_refl))).
        assert (Y : forall s, In s (subs_in subs g) -> In s subs).
        { intros s I. apply (Permutation_in _ (proj1 (subs_in_spec subs g Us))) in I. apply filter_In in I. apply I. }
        revert out Y. generalize (subs_in subs g) as ss. induction ss as [|s ss IHs]; intros out Y; [reflexivity|].
        cbn [map fold_left flat_map snd]. rewrite map_app, fold_left_app. rewrite (DI s (Y s (or_introl eq_refl))).
        rewrite IHs by (intros t I; apply Y; right; exact I). f_equal.
        generalize out. generalize (items_in items s). clear. intros l. induction l as [|i l IH]; intros out; [reflexivity|]. cbn. apply IH. }
      apply X. intros g I. exact (Permutation_in _ Pg I).
    + rewrite dict_of_fresh; [reflexivity|]. cbn. rewrite map_map. exact (line_up_names groups subs items U C).
  - rewrite ordered_dict_eq.
    + rewrite map_map. cbn [fst snd]. apply map_ext_in. intros s I. rewrite (DI s (Permutation_in _ Ps I)), combine_names. reflexivity.
    + apply (Permutation_NoDup (l := map s_name subs)); [apply Permutation_map; symmetry; exact Ps|exact Us].
  - rewrite ordered_dict_eq.
    + rewrite map_map. cbn [fst snd]. apply map_ext_in. intros g I. rewrite (DS g (Permutation_in _ Pg I)), combine_names. reflexivity.
    + apply (Permutation_NoDup (l := map g_name groups)); [apply Permutation_map; symmetry; exact Pg|exact Ug].
Qed.
Lemma get_items_iff groups subs items : unique groups subs items ->
  ((exists o, get_items groups subs items = Ok o) <-> complete groups subs items) /\
  (forall e, get_items groups subs items = Err e -> e = KeyError).
Proof.
  intros U. pose proof U as (Ug & Us & Ui). split; [split|].
  - intros (o & E). exact (proj1 (get_items_ok _ _ _ _ U E)).
  - intros [C1 C2]. unfold get_items. rewrite (empty_dict g_name groups Ug), (empty_dict s_name subs Us).
    pose proof (place_subs_spec subs (map (fun g => (g_name g, [])) groups)) as S. destruct (place_subs subs _) as [gi|e]; cbn [bind].
    + pose proof (place_items_spec items (map (fun s => (s_name s, [])) subs)) as T. destruct (place_items items _) as [si|e]; cbn [bind]; [eexists; reflexivity|].
      destruct T as (_ & i & I & N). exfalso. destruct (C2 i I) as (s & J & F). rewrite get_empty in N.
      rewrite (proj2 (existsb_name s_name subs (wanted i))) in N by (exists s; split; assumption). discriminate.
    + destruct S as (_ & s & I & N). exfalso. destruct (C1 s I) as (g & J & F). specialize (N _ F). rewrite get_empty in N.
      rewrite (proj2 (existsb_name g_name groups (g_name g))) in N by (exists g; split; [exact J|reflexivity]). discriminate.
  - intros e. unfold get_items.
    pose proof (place_subs_spec subs (dict_of pystr_eqb (map (fun g => (g_name g, [])) groups))) as S.
    destruct (place_subs subs _) as [gi|e']; cbn [bind]; [|intros E; injection E as <-; apply S].
    pose proof (place_items_spec items (dict_of pystr_eqb (map (fun s => (s_name s, [])) subs))) as T.
    destruct (place_items items _) as [si|e']; cbn [bind]; [discriminate|intros E; injection E as <-; apply T].
Qed.

Lemma ranks_of groups subs l : unique groups subs [] -> (forall i, In i l -> exists r, ranked groups subs i r) ->
  StronglySorted (fun a b => forall r r', ranked groups subs a r -> ranked groups subs b r' -> before r r') l ->
  exists rs, Forall2 (ranked groups subs) l rs /\ StronglySorted before rs.
Proof.
  intros U H S. induction S as [|i l S IH F].
  - exists []. split; constructor.
  - destruct IH as (rs & R & SS); [intros j I; apply H; right; exact I|]. destruct (H i (or_introl eq_refl)) as (r & Hr).
    exists (r :: rs). split; [constructor; assumption|]. constructor; [exact SS|]. clear SS H. rewrite Forall_forall in F. apply Forall_forall.
    intros r' I. clear S U. induction R as [|j r2 l rs' Hj R IHR]; [destruct I|]. destruct I as [<-|I].
    + exact (F j (or_introl eq_refl) r r2 Hr Hj).
    + apply IHR; [|exact I]. intros x J. apply F. right. exact J.
Qed.
Lemma Forall2_map_r {A B} (R : A -> B -> Prop) (f : A -> B) l : (forall x, R x (f x)) -> Forall2 R l (map f l).
Proof. intros H. induction l; cbn; constructor; auto. Qed.
Lemma items_spec groups subs items o : unique groups subs items -> get_items groups subs items = Ok o ->
  exists l rs items', under_names i_name l (o_items o) /\ Permutation l items' /\ Forall2 filled items items' /\
    Forall2 (ranked groups subs) l rs /\ StronglySorted before rs.
Proof.
  intros U E. destruct (get_items_ok _ _ _ _ U E) as [C ->].
  assert (U0 : unique groups subs []) by (destruct U as (A & B & _); repeat split; [exact A|exact B|constructor]).
  destruct (ranks_of groups subs (line_up groups subs items) U0) as (rs & R & S).
  - intros i I. unfold line_up in I. apply in_flat_map in I as (g & G & I). apply in_flat_map in I as (s & Hs & I).
    eexists. apply (item_rank groups subs items U g s i); [|exact Hs|exact I].
    exact (Permutation_in _ (proj1 (sort_groups_spec groups (proj1 U))) G).
  - exact (line_up_sorted groups subs items U C).
  - exists (line_up groups subs items), rs, (map fill items). split; [reflexivity|]. split; [exact (all_items groups subs items U C)|].
    split; [apply Forall2_map_r; exact fill_filled|]. split; [exact R|exact S].
Qed.
Lemma subs_spec groups subs items o : unique groups subs items -> get_items groups subs items = Ok o ->
  exists l, Permutation l subs /\ StronglySorted (fun a b => place_lt (s_place a) (s_place b)) l /\
    map fst (o_subs o) = map s_name l /\ map (fun p => fst (snd p)) (o_subs o) = l /\
    forall n s d, In (n, (s, d)) (o_subs o) -> exists mine, under_names i_name mine d /\
      (forall i, In i mine <-> exists j, In j items /\ wanted j = s_name s /\ filled j i) /\
      StronglySorted (fun a b => place_lt (i_place a) (i_place b)) mine.
Proof.
  intros U E. destruct (get_items_ok _ _ _ _ U E) as [C ->]. pose proof U as (Ug & Us & Ui). exists (sort_subs subs).
  destruct (sort_subs_spec subs Us) as [P S]. split; [exact P|]. split; [exact S|]. cbn [o_subs]. rewrite !map_map. cbn [fst snd].
  split; [reflexivity|]. split; [apply map_id|]. intros n s d I. apply in_map_iff in I as (s' & F & _). injection F as <- <- <-.
  exists (items_in items s'). split; [reflexivity|]. destruct (items_in_spec items s' Ui) as (P' & S' & _). split; [|exact S'].
  intros i. split.
  - intros I. apply (Permutation_in _ P') in I. apply in_map_iff in I as (j & <- & J). apply filter_In in J as [J F]. apply pystr_eqb_eq in F.
    exists j. split; [exact J|]. split; [exact F|apply fill_filled].
  - intros (j & J & F & G). apply (Permutation_in _ (Permutation_sym P')). apply in_map_iff. exists j. split.
    + inversion G; reflexivity.
    + apply filter_In. split; [exact J|]. unfold of_sub. rewrite F. apply pystr_eqb_refl.
Qed.
Lemma groups_spec groups subs items o : unique groups subs items -> get_items groups subs items = Ok o ->
  exists l, Permutation l groups /\ StronglySorted (fun a b => place_lt (g_place a) (g_place b)) l /\
    map fst (o_groups o) = map g_name l /\ map (fun p => fst (snd p)) (o_groups o) = l /\
    forall n g d, In (n, (g, d)) (o_groups o) -> exists mine, under_names s_name mine d /\
      (forall s, In s mine <-> In s subs /\ s_group s = Some (g_name g)) /\
      StronglySorted (fun a b => place_lt (s_place a) (s_place b)) mine.
Proof.
  intros U E. destruct (get_items_ok _ _ _ _ U E) as [C ->]. pose proof U as (Ug & Us & Ui). exists (sort_groups groups).
  destruct (sort_groups_spec groups Ug) as [P S]. split; [exact P|]. split; [exact S|]. cbn [o_groups]. rewrite !map_map. cbn [fst snd].
  split; [reflexivity|]. split; [apply map_id|]. intros n g d I. apply in_map_iff in I as (g' & F & _). injection F as <- <- <-.
  exists (subs_in subs g'). split; [reflexivity|]. destruct (subs_in_spec subs g' Us) as (P' & S' & _). split; [|exact S'].
  intros s. split.
  - intros I. apply (Permutation_in _ P') in I. apply filter_In in I as [I F]. unfold of_group in F. destruct (s_group s); [|discriminate].
    apply pystr_eqb_eq in F. split; [exact I|congruence].
  - intros [I F]. apply (Permutation_in _ (Permutation_sym P')). apply filter_In. split; [exact I|]. unfold of_group. rewrite F. apply pystr_eqb_refl.
Qed.
