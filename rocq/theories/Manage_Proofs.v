(** Proofs for C70. *)
From Coq Require Import ZArith NArith Arith Lia List Bool String Permutation.
From Verif Require Import Common Order Version_Model Manage_Model Manage_Spec.
Import ListNotations.
Local Open Scope string_scope.
Local Open Scope list_scope.

(** *** Ways to match. *)
Definition best (r : re) (s : pystr) : option way := hd_error (ways r s).
Definition any {A} (l : list A) : bool := match l with [] => false | _ => true end.
Lemma hd_flat {A B} (f : A -> list B) l : hd_error (flat_map f l) = match find (fun x => any (f x)) l with Some x => hd_error (f x) | None => None end.
Proof.
  induction l as [|a l IH]; [reflexivity|]. cbn [flat_map find]. destruct (f a) eqn:E; cbn [any app]; [exact IH|]. rewrite E. reflexivity.
Qed.
Lemma any_map {A B} (f : A -> B) l : any (map f l) = any l. Proof. destruct l; reflexivity. Qed.
Lemma any_flat {A B} (f : A -> list B) l : any (flat_map f l) = existsb (fun x => any (f x)) l.
Proof. induction l as [|a l IH]; [reflexivity|]. cbn [flat_map existsb]. destruct (f a); cbn [any app orb]; [exact IH|reflexivity]. Qed.
Lemma any_app {A} (l m : list A) : any (l ++ m) = any l || any m. Proof. destruct l; reflexivity. Qed.
Definition join (m : way) (o : option way) : option way :=
  let '(w, g, t) := m in match o with Some (w', g', t') => Some (w ++ w', g ++ g', t') | None => None end.
Definition left (m : way) : pystr := snd m.
Lemma any_after f m : any (after f m) = any (f (left m)).
Proof. destruct m as [[w g] t]. cbn [after left snd]. apply any_map. Qed.
Lemma hd_after f m : hd_error (after f m) = join m (hd_error (f (left m))).
Proof. destruct m as [[w g] t]. cbn [after left snd join]. destruct (f t) as [|[[w' g'] t'] l]; reflexivity. Qed.
Lemma find_ext {A} (f g : A -> bool) l : (forall x, f x = g x) -> find f l = find g l.
Proof. intros E. induction l as [|a l IH]; [reflexivity|]. cbn [find]. rewrite E, IH. reflexivity. Qed.
Lemma best_seq a b s : best (Seq a b) s =
  match find (fun m => any (ways b (left m))) (ways a s) with Some m => join m (best b (left m)) | None => None end.
Proof.
  unfold best. cbn [ways]. rewrite hd_flat. rewrite (find_ext _ (fun m => any (ways b (left m)))) by (intros x; apply any_after).
  destruct (find _ _) as [m|]; [apply hd_after|reflexivity].
Qed.
Lemma any_seq a b s : any (ways (Seq a b) s) = existsb (fun m => any (ways b (left m))) (ways a s).
Proof.
  cbn [ways]. rewrite any_flat. induction (ways a s) as [|m l IH]; [reflexivity|]. cbn [existsb]. rewrite any_after, IH. reflexivity.
Qed.
Lemma any_best r s : any (ways r s) = match best r s with Some _ => true | None => false end.
Proof. unfold best. destruct (ways r s); reflexivity. Qed.
Lemma find_map {A B} (f : B -> bool) (g : A -> B) l : find f (map g l) = option_map g (find (fun x => f (g x)) l).
Proof. induction l as [|a l IH]; [reflexivity|]. cbn [map find]. destruct (f (g a)); [reflexivity|exact IH]. Qed.
Lemma find_app {A} (f : A -> bool) l m : find f (l ++ m) = match find f l with Some x => Some x | None => find f m end.
Proof. induction l as [|a l IH]; [reflexivity|]. cbn [app find]. destruct (f a); [reflexivity|exact IH]. Qed.
Lemma find_all {A} (f : A -> bool) l : (forall x, f x = true) -> find f l = hd_error l.
Proof. intros E. destruct l as [|a l]; [reflexivity|]. cbn [find hd_error]. rewrite E. reflexivity. Qed.

(** *** Runs. *)
Lemma runs_hd p s : hd_error (runs p s) = Some (take_while p s, drop_while p s).
Proof.
  induction s as [|c t IH]; [reflexivity|]. cbn [runs take_while drop_while]. destruct (p c); [|reflexivity].
  destruct (runs p t) as [|wt l]; [discriminate|]. injection IH as ->. reflexivity.
Qed.
Lemma runs_in p s w t : In (w, t) (runs p s) <-> s = w ++ t /\ Forall (fun c => p c = true) w.
Proof.
  revert w t. induction s as [|c s IH]; intros w t; cbn [runs].
  - split.
    + intros [E|[]]. injection E as <- <-. split; [reflexivity|constructor].
    + intros [E _]. symmetry in E. apply app_eq_nil in E. destruct E as [-> ->]. left. reflexivity.
  - destruct (p c) eqn:P.
    + rewrite in_app_iff, in_map_iff. split.
      * intros [[[w' t'] [E I]]|[E|[]]].
        -- cbn [fst snd] in E. injection E as <- <-. apply IH in I. destruct I as [-> F]. split; [reflexivity|]. constructor; assumption.
        -- injection E as <- <-. split; [reflexivity|constructor].
      * intros [E F]. destruct w as [|c' w]; [right; left; cbn in E; rewrite E; reflexivity|]. injection E as <- ->. left. exists (w, t). split; [reflexivity|]. apply IH. inversion F; subst. split; [reflexivity|assumption].
    + split.
      * intros [E|[]]. injection E as <- <-. split; [reflexivity|constructor].
      * intros [E F]. destruct w as [|c' w]; [left; cbn in E; rewrite E; reflexivity|]. injection E as <- ->. inversion F; subst. congruence.
Qed.
Lemma runs_desc p s : forall l1 w t l2 w' t', runs p s = l1 ++ (w, t) :: l2 -> In (w', t') l2 -> (List.length w' < List.length w)%nat.
Proof.
  induction s as [|c s IH]; intros l1 w t l2 w' t' E I; cbn [runs] in E.
  - destruct l1 as [|x [|y l1]]; try discriminate. injection E as <- <- <-. destruct I.
  - assert (K : forall l1, [([], c :: s)] = l1 ++ (w, t) :: l2 -> False) by (intros [|x [|y l]] X; try discriminate; injection X as <- <- <-; destruct I).
    destruct (p c); [|exfalso; exact (K _ E)]. clear K.
    revert I.
    assert (D : (exists m, l2 = m ++ [([], c :: s)] /\ map (fun wt => (c :: fst wt, snd wt)) (runs p s) = l1 ++ (w, t) :: m) \/ l2 = []).
    { clear IH. destruct l2 as [|y l2]; [right; reflexivity|left].
      destruct (@exists_last _ (y :: l2) ltac:(discriminate)) as [m [x X]]. exists m. rewrite X in E |- *.
      change (l1 ++ (w, t) :: m ++ [x]) with (l1 ++ ((w, t) :: m) ++ [x]) in E. rewrite app_assoc in E. apply app_inj_tail in E. destruct E as [E1 E2]. subst x. split; [reflexivity|assumption]. }
    destruct D as [[m [-> M]]| ->]; [|intros []].
    apply map_eq_app in M. destruct M as [m1 [m2 [R [M1 M2]]]]. destruct m2 as [|[w0 t0] m2]; [discriminate|]. cbn [map fst snd] in M2. injection M2 as <- <- <-.
    rewrite in_app_iff, in_map_iff. intros [[[w1 t1] [X Y]]|[X|[]]]; cbn [fst snd] in X; injection X as <- <-; cbn [List.length]; [|lia].
    apply -> Nat.succ_lt_mono. exact (IH _ _ _ _ _ _ R Y).
Qed.

Section Unicode.
Variables uni_word uni_digit uni_space : N -> bool.
Local Notation wordc := (wordc uni_word).
Local Notation digitc := (digitc uni_digit).
Local Notation spacec := (spacec uni_space).
Local Notation name_char := (name_char uni_word).
Local Notation filler := (filler uni_word).
Local Notation number_char := (number_char uni_digit).

Definition opg (n : nat) (o : option pystr) : groups := match o with Some w => [(n, w)] | None => [] end.
Definition found (r : re) (s : pystr) (g : groups) : Prop := exists w t, best r s = Some (w, g, t).

Lemma best_opt a s : best (Opt a) s = match best a s with Some x => Some x | None => Some ([], [], s) end.
Proof. unfold best. cbn [ways]. destruct (ways a s); reflexivity. Qed.
Lemma any_opt a s : any (ways (Opt a) s) = true.
Proof. cbn [ways]. rewrite any_app. apply orb_true_r. Qed.
Lemma best_group n a s : best (Group n a) s = match best a s with Some (w, g, t) => Some (w, (n, w) :: g, t) | None => None end.
Proof. unfold best. cbn [ways]. destruct (ways a s) as [|[[w g] t] l]; reflexivity. Qed.
Lemma best_some p s : best (Some1 p) s = match s with c :: _ => if p c then Some (take_while p s, [], drop_while p s) else None | [] => None end.
Proof.
  unfold best. cbn [ways]. destruct s as [|c t]; [reflexivity|]. pose proof (runs_hd p (c :: t)) as H. cbn [runs] in H |- *. destruct (p c) eqn:P.
  - destruct (runs p t) as [|[w u] l] eqn:R; [pose proof (runs_hd p t) as H0; rewrite R in H0; discriminate|]. cbn [map app hd_error fst snd] in H |- *. cbn [filter fst nonempty map hd_error snd].
    injection H as H1 H2. rewrite H1, H2. reflexivity.
  - reflexivity.
Qed.
Lemma best_cls p s : best (Cls p) s = match s with c :: t => if p c then Some ([c], [], t) else None | [] => None end.
Proof. unfold best. cbn [ways]. destruct s as [|c t]; [reflexivity|]. destruct (p c); reflexivity. Qed.

(** *** Dependencies. *)
Definition OPER : re := Seq (Cls (among (str "><="))) (Opt (is EQUALS)).
Definition TAIL : re :=
  Seq (Opt (Group 3 OPER)) (Opt (Group 4 (Some1 number_char))).
Lemma oper_spec s : match best OPER s with
  | Some (w, g, t) => g = [] /\ split_op s = (Some w, t) | None => split_op s = (None, s) end.
Proof.
  unfold OPER. rewrite best_seq. destruct s as [|c s]; [reflexivity|]. cbn [ways]. unfold among at 1. cbn [str map existsb String.list_ascii_of_string].
  unfold split_op, starts. cbn [find].
  destruct s as [|d s].
  - cbn. destruct (N.eqb_spec c 62) as [->|?]; [cbn; auto|]. destruct (N.eqb_spec c 60) as [->|?]; [cbn; auto|]. destruct (N.eqb_spec c 61) as [->|?]; cbn; auto.
  - cbn. destruct (N.eqb_spec c 62) as [->|?]; [|destruct (N.eqb_spec c 60) as [->|?]; [|destruct (N.eqb_spec c 61) as [->|?]]]; cbn; try (destruct (N.eqb_spec d 61) as [->|?]; cbn; auto); auto.
  all: unfold best; cbn; replace (d =? EQUALS)%N with false by (symmetry; apply N.eqb_neq; assumption); cbn; replace (d =? EQUALS)%N with false by (symmetry; apply N.eqb_neq; assumption); cbn; auto.
Qed.
Lemma tail_any s : any (ways TAIL s) = true.
Proof.
  unfold TAIL. rewrite any_seq. apply existsb_exists. pose proof (any_opt (Group 3 OPER) s) as H. destruct (ways (Opt (Group 3 OPER)) s) as [|m l] eqn:E; [discriminate|].
  exists m. split; [left; reflexivity|]. apply any_opt.
Qed.
Lemma number_spec n s : exists w t, best (Opt (Group n (Some1 number_char))) s = Some (w, opg n (some_text (take_while number_char s)), t).
Proof.
  rewrite best_opt, best_group, best_some. destruct s as [|c s]; [do 2 eexists; reflexivity|]. cbn [take_while]. destruct (number_char c); do 2 eexists; reflexivity.
Qed.
Lemma best_opt_seq a b s : (forall u, any (ways b u) = true) -> best (Seq a b) s = match best a s with Some m => join m (best b (left m)) | None => None end.
Proof. intros H. rewrite best_seq. rewrite find_all by (intros x; apply H). reflexivity. Qed.
Definition rest_groups (t : pystr) : groups :=
  let (op, u) := split_op t in opg 3 op ++ opg 4 (some_text (take_while number_char u)).
Lemma tail_spec s : found TAIL s (rest_groups s).
Proof.
  unfold TAIL, found, rest_groups. rewrite best_opt_seq by (intros; apply any_opt). rewrite best_opt, best_group. pose proof (oper_spec s) as O.
  destruct (best OPER s) as [[[w g] t]|].
  - destruct O as [-> E]. rewrite E. unfold left. cbn [snd]. destruct (number_spec 4 t) as [w' [t' B]]. rewrite B. do 2 eexists. reflexivity.
  - rewrite O. unfold left. cbn [snd]. destruct (number_spec 4 s) as [w' [t' B]]. rewrite B. do 2 eexists. reflexivity.
Qed.
Definition NAME : re := Seq (Group 2 (Some1 name_char)) TAIL.
Definition named_here (r : pystr) : bool := match r with c :: _ => name_char c | [] => false end.
Lemma name_spec r : if named_here r then found NAME r ((2, take_while name_char r) :: rest_groups (drop_while name_char r)) else best NAME r = None.
Proof.
  unfold NAME. rewrite best_opt_seq by apply tail_any. rewrite best_group, best_some. destruct r as [|c r]; [reflexivity|]. cbn [named_here]. destruct (name_char c) eqn:E; [|reflexivity].
  unfold found. rewrite best_opt_seq by apply tail_any. rewrite best_group, best_some, E. unfold left. cbn [snd]. destruct (tail_spec (drop_while name_char (c :: r))) as [w [t B]]. rewrite B.
  do 2 eexists. reflexivity.
Qed.
Lemma name_any r : any (ways NAME r) = named_here r.
Proof. rewrite any_best. pose proof (name_spec r) as H. destruct (named_here r); [destruct H as [w [t ->]]; reflexivity|rewrite H; reflexivity]. Qed.
(** Where the name is, and what follows it. *)
Definition place_of (r : pystr) : option (pystr * pystr) :=
  let r' := drop_while filler r in
  match r' with
  | c :: _ => if wordc c then Some (take_while name_char r', drop_while name_char r') else option_map (fun u => ([DASH], u ++ r')) (after_dash (take_while filler r))
  | [] => option_map (fun u => ([DASH], u)) (after_dash (take_while filler r))
  end.
Lemma scan_place t : scan uni_word uni_digit t = let (flag, r) := split_flag t in option_map (fun nu => scan_rest uni_digit flag (fst nu) (snd nu)) (place_of r).
Proof.
  unfold scan, place_of. destruct (split_flag t) as [flag r]. destruct (drop_while filler r) as [|c r']; [destruct (after_dash (take_while filler r)); reflexivity|].
  destruct (wordc c); [reflexivity|]. destruct (after_dash (take_while filler r)); reflexivity.
Qed.
Definition JUNK : re := Seq (Many filler) NAME.
Lemma take_drop p s : take_while p s ++ drop_while p s = s.
Proof. induction s as [|c s IH]; [reflexivity|]. cbn [take_while drop_while]. destruct (p c); [cbn; rewrite IH; reflexivity|reflexivity]. Qed.
Lemma drop_head p s c t : drop_while p s = c :: t -> p c = false.
Proof. induction s as [|d s IH]; [discriminate|]. cbn [drop_while]. destruct (p d) eqn:E; [exact IH|]. intros X; injection X as <- _; exact E. Qed.
Lemma filler_dash : filler DASH = true. Proof. reflexivity. Qed.
Lemma filler_name c : filler c = true -> name_char c = N.eqb c DASH.
Proof. unfold Manage_Spec.filler, Manage_Spec.name_char. destruct (wordc c); [discriminate|reflexivity]. Qed.
Lemma after_dash_split s u : after_dash s = Some u -> exists v, s = v ++ DASH :: u /\ ~ In DASH u.
Proof.
  revert u. induction s as [|c s IH]; intros u; [discriminate|]. cbn [after_dash]. destruct (after_dash s) as [u'|] eqn:E.
  - intros X; injection X as <-. destruct (IH _ eq_refl) as [v [-> N]]. exists (c :: v). split; [reflexivity|exact N].
  - destruct (N.eqb_spec c DASH) as [->|]; [|discriminate]. intros X; injection X as <-. exists []. split; [reflexivity|]. clear IH.
    induction s as [|d s IH]; [intros []|]. cbn [after_dash] in E. destruct (after_dash s) eqn:F; [discriminate|]. destruct (N.eqb_spec d DASH); [discriminate|]. intros [->|I]; [congruence|exact (IH eq_refl I)].
Qed.
Lemma after_dash_none s : after_dash s = None <-> ~ In DASH s.
Proof.
  split.
  - induction s as [|d s IH]; [intros _ []|]. cbn [after_dash]. destruct (after_dash s) eqn:F; [discriminate|]. destruct (N.eqb_spec d DASH); [discriminate|]. intros _ [->|I]; [congruence|exact (IH eq_refl I)].
  - intros N. destruct (after_dash s) eqn:E; [|reflexivity]. apply after_dash_split in E. destruct E as [v [-> _]]. exfalso. apply N. apply in_or_app. right. left. reflexivity.
Qed.
(** The run that is kept: the longest after which there is a name. *)
Definition kept_run (r : pystr) : option (pystr * pystr) := find (fun wt => named_here (snd wt)) (runs filler r).
Lemma kept_spec r : kept_run r =
  if named_here (drop_while filler r) then Some (take_while filler r, drop_while filler r)
  else match after_dash (take_while filler r) with
       | Some u => Some (firstn (List.length (take_while filler r) - S (List.length u)) (take_while filler r), DASH :: u ++ drop_while filler r)
       | None => None end.
Proof.
  unfold kept_run. induction r as [|c r IH]; [reflexivity|]. cbn [runs take_while drop_while].
  destruct (filler c) eqn:F.
  - rewrite find_app, find_map. cbn [snd]. change (find (fun x : list N * pystr => named_here (snd x)) (runs filler r)) with (find (fun wt : pystr * pystr => named_here (snd wt)) (runs filler r)). rewrite IH. clear IH. destruct (named_here (drop_while filler r)); [reflexivity|]. cbn [after_dash].
    destruct (after_dash (take_while filler r)) as [u|] eqn:A.
    + cbn [option_map fst snd List.length]. apply after_dash_split in A. destruct A as [v [A _]]. rewrite A, app_length. cbn [List.length].
      replace (List.length v + S (List.length u) - S (List.length u)) with (List.length v) by lia. replace (S (List.length v + S (List.length u)) - S (List.length u)) with (S (List.length v)) by lia. reflexivity.
    + cbn [option_map find snd named_here]. rewrite (filler_name c F). destruct (N.eqb_spec c DASH) as [->|]; [|reflexivity]. cbn [List.length]. rewrite Nat.sub_diag. cbn [firstn]. rewrite take_drop. reflexivity.
  - cbn [find snd named_here after_dash]. reflexivity.
Qed.
Lemma name_only u r : Forall (fun c => filler c = true) u -> ~ In DASH u -> named_here r = false -> take_while name_char (u ++ r) = [] /\ drop_while name_char (u ++ r) = u ++ r.
Proof.
  intros F N H. destruct u as [|c u]; cbn [app].
  - destruct r as [|c r]; [split; reflexivity|]. cbn [named_here] in H. cbn [take_while drop_while]. rewrite H. split; reflexivity.
  - inversion F; subst. cbn [take_while drop_while]. rewrite (filler_name c) by assumption. destruct (N.eqb_spec c DASH) as [->|]; [exfalso; apply N; left; reflexivity|split; reflexivity].
Qed.
Lemma take_all p s : Forall (fun c => p c = true) (take_while p s).
Proof. induction s as [|c s IH]; [constructor|]. cbn [take_while]. destruct (p c) eqn:E; constructor; assumption. Qed.
Lemma junk_spec r : match place_of r with
  | Some (n, u) => found JUNK r ((2, n) :: rest_groups u)
  | None => best JUNK r = None end.
Proof.
  unfold JUNK, found. rewrite !best_seq. cbn [ways]. rewrite find_map.
  rewrite (find_ext _ (fun wt => named_here (snd wt))) by (intros [w t]; unfold left; cbn [fst snd]; apply name_any).
  fold (kept_run r). rewrite kept_spec.
  assert (W : named_here (drop_while filler r) = match drop_while filler r with c :: _ => wordc c | [] => false end).
  { destruct (drop_while filler r) as [|c r'] eqn:D; [reflexivity|]. cbn [named_here]. apply drop_head in D. unfold Manage_Spec.filler in D. unfold Manage_Spec.name_char.
    destruct (wordc c); [reflexivity|]. cbn [negb andb orb] in *. destruct (N.eqb_spec c DASH) as [->|]; [discriminate|reflexivity]. }
  destruct (named_here (drop_while filler r)) eqn:H.
  - unfold place_of. destruct (drop_while filler r) as [|c r'] eqn:D; [discriminate|]. rewrite <- W. cbn [option_map fst snd join]. unfold left. cbn [snd].
    pose proof (name_spec (c :: r')) as N. rewrite H in N. destruct N as [w [t ->]]. cbn [join app]. do 2 eexists. reflexivity.
  - assert (P : place_of r = option_map (fun u => ([DASH], u ++ drop_while filler r)) (after_dash (take_while filler r))).
    { unfold place_of. destruct (drop_while filler r) as [|c r']; [|rewrite <- W; reflexivity]. destruct (after_dash (take_while filler r)); [|reflexivity]. cbn [option_map]. rewrite app_nil_r. reflexivity. }
    rewrite P. clear P. destruct (after_dash (take_while filler r)) as [u|] eqn:A; [|reflexivity]. cbn [option_map fst snd]. unfold left. cbn [snd].
    pose proof (name_spec (DASH :: u ++ drop_while filler r)) as N. change (named_here (DASH :: u ++ drop_while filler r)) with true in N. cbn beta iota in N. destruct N as [w [t ->]]. cbn [join app].
    pose proof (take_all filler r) as F. apply after_dash_split in A. destruct A as [v [A ND]]. rewrite A in F. apply Forall_app in F. destruct F as [_ F]. inversion F as [|x y _ F' E]; subst.
    destruct (name_only u (drop_while filler r) F' ND H) as [T1 T2]. cbn [take_while drop_while]. change (name_char DASH) with true. cbn beta iota. rewrite T1, T2. do 2 eexists. reflexivity.
Qed.
Lemma junk_any r : any (ways JUNK r) = match place_of r with Some _ => true | None => false end.
Proof. rewrite any_best. pose proof (junk_spec r) as H. destruct (place_of r) as [[n u]|]; [destruct H as [w [t ->]]; reflexivity|rewrite H; reflexivity]. Qed.
Definition FLAG : re := Opt (Group 1 (Alt (is BANG) (Alt (is QUEST) (Alt (Seq (is LPAR) (Seq (is QUEST) (is RPAR))) (is TILDE))))).
Lemma dependency_shape : dependency_regex uni_word uni_digit = Seq FLAG JUNK. Proof. reflexivity. Qed.
(** Text that cannot follow a missing flag. *)
Lemma place_stop c t : filler c = false -> wordc c = false -> place_of (c :: t) = None.
Proof. intros F W. unfold place_of. cbn [drop_while take_while]. rewrite F, W. reflexivity. Qed.
Lemma place_tilde t : place_of (TILDE :: t) = place_of t.
Proof.
  unfold place_of. cbn [drop_while take_while]. change (filler TILDE) with true. cbn iota beta. cbn [after_dash]. change (TILDE =? DASH)%N with false. cbn iota.
  destruct (after_dash (take_while filler t)); reflexivity.
Qed.
Lemma flag_ways s : ways FLAG s = match fst (split_flag s) with Some f => [(f, [(1, f)], snd (split_flag s))] | None => [] end ++ [([], [], s)].
Proof.
  unfold FLAG. cbn [ways]. f_equal. unfold split_flag, starts. destruct s as [|a s]; [reflexivity|].
  change (str "!") with [33%N]. change (str "?") with [63%N]. change (str "(?)") with [40; 63; 41]%N. change (str "~") with [126%N].
  cbn [find map ways is app flat_map List.length firstn pystr_eqb].
  unfold BANG, QUEST, LPAR, RPAR, TILDE.
  destruct (N.eqb_spec a 33) as [->|?]; [reflexivity|]. destruct (N.eqb_spec a 63) as [->|?]; [reflexivity|].
  destruct (N.eqb_spec a 40) as [->|?].
  - destruct s as [|b s]; [reflexivity|]. cbn. destruct (N.eqb_spec b 63) as [->|?]; [|reflexivity]. destruct s as [|c s]; [reflexivity|]. cbn. destruct (N.eqb_spec c 41) as [->|?]; reflexivity.
  - cbn. destruct (N.eqb_spec a 126) as [->|?]; reflexivity.
Qed.
Lemma place_flag s f r : split_flag s = (Some f, r) -> place_of r = None -> place_of s = None.
Proof.
  unfold split_flag. destruct (find _ _) as [g|] eqn:E; [|discriminate]. intros X P; injection X as -> <-. apply find_some in E. destruct E as [I S].
  unfold starts in S. apply pystr_eqb_eq in S. rewrite <- (firstn_skipn (List.length f) s), S. clear S. generalize dependent (skipn (List.length f) s). intros r P.
  cbn [In] in I. destruct I as [<-|[<-|[<-|[<-|[]]]]].
  - apply place_stop; reflexivity.
  - apply place_stop; reflexivity.
  - reflexivity.
  - change (place_of (TILDE :: r) = None). rewrite place_tilde. exact P.
Qed.
Lemma rest_get flag n t : group (opg 1 flag ++ (2, n) :: rest_groups t) 1 = flag /\ group (opg 1 flag ++ (2, n) :: rest_groups t) 2 = Some n /\
  group (opg 1 flag ++ (2, n) :: rest_groups t) 3 = fst (split_op t) /\ group (opg 1 flag ++ (2, n) :: rest_groups t) 4 = some_text (take_while number_char (snd (split_op t))).
Proof.
  unfold rest_groups. destruct (split_op t) as [op u]. cbn [fst snd]. destruct flag, op, (some_text (take_while number_char u)); repeat split.
Qed.
Theorem match_spec t : match scan uni_word uni_digit t with
  | Some d => exists g, re_match (dependency_regex uni_word uni_digit) t = Some g /\ d = mkDep (group g 1) (group g 2) (group g 3) (group g 4)
  | None => re_match (dependency_regex uni_word uni_digit) t = None end.
Proof.
  assert (B : re_match (dependency_regex uni_word uni_digit) t = match best (Seq FLAG JUNK) t with Some (_, g, _) => Some g | None => None end).
  { rewrite dependency_shape. unfold re_match, best. destruct (ways (Seq FLAG JUNK) t) as [|[[w g] u] l]; reflexivity. }
  rewrite B. clear B. rewrite best_seq, flag_ways, find_app, scan_place.
  destruct (split_flag t) as [flag r] eqn:S. cbn [fst snd].
  assert (K : forall flag n u r, place_of r = Some (n, u) -> forall w, exists g, match join (w, opg 1 flag, r) (best JUNK (left (w, opg 1 flag, r))) with Some (_, g, _) => Some g | None => None end = Some g /\
     scan_rest uni_digit flag n u = mkDep (group g 1) (group g 2) (group g 3) (group g 4)).
  { clear. intros flag n u r P w. pose proof (junk_spec r) as J. rewrite P in J. destruct J as [w' [t' J]]. unfold left. cbn [snd]. rewrite J. cbn [join]. eexists. split; [reflexivity|].
    destruct (rest_get flag n u) as [-> [-> [-> ->]]]. unfold scan_rest. destruct (split_op u). reflexivity. }
  destruct flag as [f|].
  - cbn [find]. change (left (f, [(1, f)], r)) with r. rewrite junk_any. destruct (place_of r) as [[n u]|] eqn:P.
    + cbn [option_map fst snd]. exact (K (Some f) n u r P f).
    + change (left ([], [], t)) with t. rewrite junk_any. rewrite (place_flag t f r S P). reflexivity.
  - assert (r = t) as -> by (unfold split_flag in S; destruct (find _ _); [discriminate|injection S; auto]).
    cbn [find]. change (left ([], [], t)) with t. rewrite junk_any. destruct (place_of t) as [[n u]|] eqn:P; [|reflexivity]. cbn [option_map fst snd]. exact (K None n u t P []).
Qed.
(** Reading a dependency is scanning it without its spaces. *)
Theorem read_scan s : read_dependency uni_word uni_digit s = match scan uni_word uni_digit (no_spaces s) with Some d => Ok d | None => Err TypeError end.
Proof.
  unfold read_dependency. pose proof (match_spec (no_spaces s)) as H. destruct (scan uni_word uni_digit (no_spaces s)) as [d|].
  - destruct H as [g [-> ->]]. reflexivity.
  - rewrite H. reflexivity.
Qed.
Lemma take_stop p s t : Forall (fun c => p c = true) s -> match t with c :: _ => p c = false | [] => True end -> take_while p (s ++ t) = s /\ drop_while p (s ++ t) = t.
Proof.
  intros F H. induction F as [|c s E F IH]; cbn [app].
  - destruct t as [|c t]; [split; reflexivity|]. cbn [take_while drop_while]. rewrite H. split; reflexivity.
  - cbn [take_while drop_while]. rewrite E. destruct IH as [-> ->]. split; reflexivity.
Qed.
Lemma word_above c : wordc c = true -> (c <> 33 /\ c <> 63 /\ c <> 40 /\ c <> 126 /\ c <> 45)%N.
Proof. intros W. repeat split; intros ->; discriminate. Qed.
Lemma flag_split f n : good_flag f -> match n with c :: _ => wordc c = true | [] => False end -> split_flag (shown f ++ n) = (f, n).
Proof.
  intros G N. destruct n as [|c n]; [destruct N|]. destruct f as [f|].
  - cbn [good_flag In] in G. destruct G as [<-|[<-|[<-|[<-|[]]]]]; reflexivity.
  - destruct (word_above c N) as [A [B [C [D _]]]]. cbn [shown app]. unfold split_flag, starts. change (str "!") with [33%N]. change (str "?") with [63%N]. change (str "(?)") with [40; 63; 41]%N. change (str "~") with [126%N].
    cbn [find List.length firstn pystr_eqb]. rewrite (proj2 (N.eqb_neq _ _) A), (proj2 (N.eqb_neq _ _) B), (proj2 (N.eqb_neq _ _) C), (proj2 (N.eqb_neq _ _) D). reflexivity.
Qed.
Lemma op_split o v : good_op o -> good_version uni_digit o v -> split_op (shown o ++ shown v) = (o, shown v).
Proof.
  intros G V. destruct o as [o|].
  - assert (H : match shown v with c :: _ => c <> 61%N | [] => True end).
    { destruct v as [v|]; [|exact I]. destruct V as [_ [F _]]. cbn [shown]. destruct F as [|c v E F]; [exact I|]. intros ->. discriminate. }
    generalize dependent (shown v). clear V. intros u H. cbn [good_op In] in G.
    destruct G as [<-|[<-|[<-|[<-|[<-|[<-|[]]]]]]]; try reflexivity; (destruct u as [|c u]; [reflexivity|]); unfold split_op, starts;
    change (str ">=") with [62; 61]%N; change (str "<=") with [60; 61]%N; change (str "==") with [61; 61]%N; change (str ">") with [62]%N; change (str "<") with [60]%N; change (str "=") with [61]%N;
    cbn; rewrite (proj2 (N.eqb_neq _ _) H); reflexivity.
  - destruct v as [v|]; [destruct V as [_ [_ V]]; congruence|reflexivity].
Qed.
(** What is written is what is read, wherever there are spaces. *)
Theorem dependency_round s f n o v : good_flag f -> good_name uni_word n -> good_op o -> good_version uni_digit o v ->
  no_spaces s = shown f ++ n ++ shown o ++ shown v -> read_dependency uni_word uni_digit s = Ok (mkDep f (Some n) o v).
Proof.
  intros F [N1 N2] O V E. rewrite read_scan, E, scan_place. destruct n as [|c n]; [destruct N1|]. rewrite (flag_split f ((c :: n) ++ shown o ++ shown v)) by assumption.
  assert (P : place_of ((c :: n) ++ shown o ++ shown v) = Some (c :: n, shown o ++ shown v)).
  { unfold place_of. assert (FC : filler c = false) by (unfold Manage_Spec.filler; rewrite N1; reflexivity).
    cbn [app]. cbn [drop_while]. rewrite FC, N1.
    destruct (take_stop name_char (c :: n) (shown o ++ shown v) N2) as [T D]; [|cbn [app] in T, D; rewrite T, D; reflexivity].
    destruct o as [o|]; [|destruct v as [v|]; [destruct V as [_ [_ V]]; congruence|exact I]]. cbn [good_op In] in O.
    destruct O as [<-|[<-|[<-|[<-|[<-|[<-|[]]]]]]]; reflexivity. }
  rewrite P. cbn [option_map fst snd]. unfold scan_rest. rewrite (op_split o v O V). f_equal. f_equal.
  destruct v as [v|]; [|reflexivity]. destruct V as [V1 [V2 _]]. cbn [shown].
  destruct (take_stop number_char v [] V2 I) as [T _]. rewrite app_nil_r in T. rewrite T. destruct v; [congruence|reflexivity].
Qed.
(** A dash before a name is dropped, and so is a sign that is no flag. *)
Theorem dash_dropped j n : good_name uni_word n -> Forall (fun c => filler c = true) j -> ~ In TILDE j -> ~ In LPAR j -> ~ In SPACE n -> ~ In SPACE j ->
  read_dependency uni_word uni_digit (j ++ n) = Ok (mkDep None (Some n) None None).
Proof.
  intros [N1 N2] J T L Sn Sj. rewrite read_scan.
  assert (E : no_spaces (j ++ n) = j ++ n).
  { assert (X : ~ In SPACE (j ++ n)) by (rewrite in_app_iff; tauto). revert X. generalize (j ++ n). clear. intros s. induction s as [|c s IH]; [reflexivity|]. intros X. unfold no_spaces. cbn [filter].
    destruct (N.eqb_spec c SPACE) as [->|]; [exfalso; apply X; left; reflexivity|]. cbn [negb]. f_equal. apply IH. intros I. apply X. right. exact I. }
  rewrite E, scan_place. assert (S : split_flag (j ++ n) = (None, j ++ n)).
  { destruct j as [|c j].
    - exact (flag_split None n Logic.I N1).
    - inversion J as [|? ? F _]; subst. cbn [app]. unfold split_flag, starts. change (str "!") with [33%N]. change (str "?") with [63%N]. change (str "(?)") with [40; 63; 41]%N. change (str "~") with [126%N].
      cbn [find List.length firstn pystr_eqb].
      assert (c <> 33 /\ c <> 63 /\ c <> 40 /\ c <> 126)%N as [A [B [C D]]]. { repeat split; intros ->; try discriminate; [apply L|apply T]; left; reflexivity. }
      rewrite (proj2 (N.eqb_neq _ _) A), (proj2 (N.eqb_neq _ _) B), (proj2 (N.eqb_neq _ _) C), (proj2 (N.eqb_neq _ _) D). reflexivity. }
  rewrite S. unfold place_of. destruct n as [|c n]; [destruct N1|].
  destruct (take_stop filler j (c :: n) J) as [_ D]; [unfold Manage_Spec.filler; rewrite N1; reflexivity|]. rewrite D, N1.
  destruct (take_stop name_char (c :: n) [] N2 Logic.I) as [T1 T2]. rewrite app_nil_r in T1, T2. rewrite T1, T2. reflexivity.
Qed.

(** *** Archives. *)
Lemma ways_split r : forall s w g t, In (w, g, t) (ways r s) -> s = w ++ t.
Proof.
  induction r as [p|p|p|a IHa b IHb|a IHa b IHb|a IHa|n a IHa|]; intros s w g t I; cbn [ways] in I.
  - destruct s as [|c s]; [destruct I|]. destruct (p c); [|destruct I]. destruct I as [E|[]]. injection E as <- <- <-. reflexivity.
  - apply in_map_iff in I. destruct I as [[w' t'] [E I]]. injection E as <- <- <-. apply runs_in in I. apply I.
  - apply in_map_iff in I. destruct I as [[w' t'] [E I]]. injection E as <- <- <-. apply filter_In in I. destruct I as [I _]. apply runs_in in I. apply I.
  - apply in_flat_map in I. destruct I as [[[w1 g1] t1] [I1 I2]]. cbn [after] in I2. apply in_map_iff in I2. destruct I2 as [[[w2 g2] t2] [E I2]]. injection E as <- <- <-.
    apply IHa in I1. apply IHb in I2. subst. apply app_assoc.
  - apply in_app_iff in I. destruct I as [I|I]; [exact (IHa _ _ _ _ I)|exact (IHb _ _ _ _ I)].
  - apply in_app_iff in I. destruct I as [I|[E|[]]]; [exact (IHa _ _ _ _ I)|]. injection E as <- <- <-. reflexivity.
  - apply in_map_iff in I. destruct I as [[[w' g'] t'] [E I]]. injection E as <- <- <-. exact (IHa _ _ _ _ I).
  - destruct s as [|c [|d s]]; [destruct I as [E|[]]; injection E as <- <- <-; reflexivity| |destruct I]. destruct (c =? 10)%N; [|destruct I]. destruct I as [E|[]]; injection E as <- <- <-; reflexivity.
Qed.
Lemma find_first {A} (f : A -> bool) l x : find f l = Some x -> exists l1 l2, l = l1 ++ x :: l2 /\ f x = true /\ forall y, In y l1 -> f y = false.
Proof.
  induction l as [|a l IH]; [discriminate|]. cbn [find]. destruct (f a) eqn:E.
  - intros X; injection X as ->. exists [], l. split; [reflexivity|]. split; [exact E|]. intros y [].
  - intros X. destruct (IH X) as [l1 [l2 [-> [F G]]]]. exists (a :: l1), l2. split; [reflexivity|]. split; [exact F|]. intros y [<-|I]; [exact E|exact (G _ I)].
Qed.
Lemma find_some_runs p q s w t : find (fun wt => q (snd wt)) (filter (fun wt => nonempty (fst wt)) (runs p s)) = Some (w, t) ->
  s = w ++ t /\ w <> [] /\ Forall (fun c => p c = true) w /\ q t = true /\
  forall w' t', s = w' ++ t' -> w' <> [] -> Forall (fun c => p c = true) w' -> q t' = true -> (List.length w' <= List.length w)%nat.
Proof.
  intros E. assert (E' : find (fun wt => nonempty (fst wt) && q (snd wt)) (runs p s) = Some (w, t)).
  { revert E. generalize (runs p s). intros l. induction l as [|[a b] l IH]; [discriminate|]. cbn [filter fst find snd]. destruct (nonempty a); cbn [andb]; [|exact IH]. cbn [find snd]. destruct (q b); [auto|exact IH]. }
  clear E. apply find_first in E'. destruct E' as [l1 [l2 [R [F G]]]]. cbn [fst snd] in F. apply andb_true_iff in F. destruct F as [F1 F2].
  assert (I : In (w, t) (runs p s)) by (rewrite R; apply in_or_app; right; left; reflexivity). apply runs_in in I. destruct I as [-> P].
  split; [reflexivity|]. split; [intros ->; discriminate|]. split; [exact P|]. split; [exact F2|].
  intros w' t' E N P' Q. assert (I : In (w', t') (runs p (w ++ t))) by (apply runs_in; split; assumption). rewrite R in I. apply in_app_iff in I. destruct I as [I|[I|I]].
  - apply G in I. cbn [fst snd] in I. rewrite Q, andb_true_r in I. destruct w'; [congruence|discriminate].
  - injection I as <- <-. apply le_n.
  - apply Nat.lt_le_incl. exact (runs_desc p _ _ _ _ _ _ _ R I).
Qed.
Lemma find_none_runs p q s : find (fun wt => q (snd wt)) (filter (fun wt => nonempty (fst wt)) (runs p s)) = None ->
  forall w t, s = w ++ t -> w <> [] -> Forall (fun c => p c = true) w -> q t = false.
Proof.
  intros E w t -> N P. apply (fun H => find_none _ _ E (w, t) H). apply filter_In. split; [apply runs_in; split; [reflexivity|assumption]|]. destruct w; [congruence|reflexivity].
Qed.
Definition ZIP : re := Seq (is DOT) (Seq (is 122) (Seq (is 105) (is 112))).
Lemma zip_any t : any (ways ZIP t) = true <-> exists r, t = str ".zip" ++ r.
Proof.
  split.
  - destruct (ways ZIP t) as [|[[w g] u] l] eqn:E; [discriminate|]. intros _. unfold ZIP in E. cbn [ways is] in E.
    destruct t as [|a t]; [discriminate|]. destruct (N.eqb_spec a DOT) as [->|]; [|discriminate]. cbn [flat_map after] in E.
    destruct t as [|b t]; [discriminate|]. destruct (N.eqb_spec b 122) as [->|]; [|discriminate]. cbn [flat_map after] in E.
    destruct t as [|c t]; [discriminate|]. destruct (N.eqb_spec c 105) as [->|]; [|discriminate]. cbn [flat_map after] in E.
    destruct t as [|d t]; [discriminate|]. destruct (N.eqb_spec d 112) as [->|]; [|discriminate]. exists t. reflexivity.
  - intros [r ->]. reflexivity.
Qed.
Lemma zip_groups t w g u : In (w, g, u) (ways ZIP t) -> g = [].
Proof.
  unfold ZIP. cbn [ways is].
  destruct t as [|a t]; [intros []|]. destruct (a =? DOT)%N; [|intros []]. cbn [flat_map after]. 
  destruct t as [|b t]; [intros []|]. destruct (b =? 122)%N; [|intros []]. cbn [flat_map after].
  destruct t as [|c t]; [intros []|]. destruct (c =? 105)%N; [|intros []]. cbn [flat_map after].
  destruct t as [|d t]; [intros []|]. destruct (d =? 112)%N; [|intros []]. cbn. intros [E|[]]. injection E as _ <- _. reflexivity.
Qed.
Lemma find_flat {A B} (f : B -> bool) (h : A -> list B) l : find f (flat_map h l) = match find (fun x => existsb f (h x)) l with Some x => find f (h x) | None => None end.
Proof.
  induction l as [|a l IH]; [reflexivity|]. cbn [flat_map find]. rewrite find_app, IH. destruct (existsb f (h a)) eqn:E.
  - apply existsb_exists in E. destruct E as [x [I F]]. destruct (find f (h a)) eqn:G; [reflexivity|]. pose proof (find_none _ _ G x I). congruence.
  - destruct (find f (h a)) eqn:G; [|reflexivity]. apply find_some in G. assert (existsb f (h a) = true) by (apply existsb_exists; eexists; exact G). congruence.
Qed.
Definition NUMBER : re := Seq (is UNDER) (Group 3 (Some1 number_char)).
Lemma number_ways t w g u : In (w, g, u) (ways NUMBER t) <-> exists v, w = UNDER :: v /\ g = [(3, v)] /\ t = UNDER :: v ++ u /\ v <> [] /\ Forall (fun c => number_char c = true) v.
Proof.
  unfold NUMBER. cbn [ways is]. destruct t as [|c t]; [split; [intros []|intros [v [_ [_ [E _]]]]; discriminate]|]. destruct (N.eqb_spec c UNDER) as [->|NE].
  - cbn [flat_map after]. rewrite app_nil_r. split.
    + intros I. apply in_map_iff in I. destruct I as [[[w1 g1] u1] [E I]]. apply in_map_iff in I. destruct I as [[[w2 g2] u2] [E2 I]]. apply in_map_iff in I. destruct I as [[w3 u3] [E3 I]].
      injection E3 as <- <- <-. injection E2 as <- <- <-. injection E as <- <- <-. apply filter_In in I. destruct I as [I N]. apply runs_in in I. destruct I as [-> F].
      exists w3. cbn [fst snd]. split; [reflexivity|]. split; [reflexivity|]. split; [reflexivity|]. split; [|exact F]. intros ->. discriminate.
    + intros [v [-> [-> [E [N F]]]]]. injection E as ->. apply in_map_iff. exists (v, [(3, v)], u). split; [reflexivity|]. apply in_map_iff. exists (v, [], u). split; [reflexivity|]. apply in_map_iff. exists (v, u). split; [reflexivity|].
      apply filter_In. split; [apply runs_in; split; [reflexivity|exact F]|]. destruct v; [congruence|reflexivity].
  - split; [intros []|]. intros [v [_ [_ [E _]]]]. injection E as -> _. congruence.
Qed.
Definition version_follows (t : pystr) : bool := existsb (fun m => any (ways ZIP (left m))) (ways NUMBER t).
Lemma follows_spec t : version_follows t = true <-> exists v r, t = UNDER :: v ++ str ".zip" ++ r /\ v <> [] /\ Forall (fun c => number_char c = true) v.
Proof.
  unfold version_follows. rewrite existsb_exists. split.
  - intros [[[w g] u] [I Z]]. apply number_ways in I. destruct I as [v [-> [-> [-> [N F]]]]]. unfold left in Z. cbn [snd] in Z. apply zip_any in Z. destruct Z as [r ->]. exists v, r. auto.
  - intros [v [r [-> [N F]]]]. exists (UNDER :: v, [(3, v)], str ".zip" ++ r). split; [apply number_ways; exists v; auto|]. apply zip_any. exists r. reflexivity.
Qed.
Definition anyc (c : N) : bool := wordc c || negb (digitc c).
Definition archive_best (s : pystr) : option (pystr * pystr) := find (fun wt => version_follows (snd wt)) (filter (fun wt => nonempty (fst wt)) (runs anyc s)).
Lemma archive_shape s : re_match (archive_regex uni_word uni_digit) s =
  match archive_best s with
  | Some (n, t) => match find (fun m => any (ways ZIP (left m))) (ways NUMBER t) with
                   | Some (w, g, u) => Some ((1, n ++ w) :: (2, n) :: g)
                   | None => None end
  | None => None end.
Proof.
  set (G := Group 1 (Seq (Group 2 (Some1 anyc)) NUMBER)).
  assert (B : re_match (archive_regex uni_word uni_digit) s = match best (Seq G ZIP) s with Some (_, g, _) => Some g | None => None end).
  { change (archive_regex uni_word uni_digit) with (Seq G ZIP). unfold re_match, best. destruct (ways (Seq G ZIP) s) as [|[[w g] u] l]; reflexivity. }
  rewrite B. clear B. rewrite best_seq. unfold G. cbn [ways]. rewrite find_map.
  rewrite (find_ext _ (fun m => any (ways ZIP (left m)))) by (intros [[w g] t]; reflexivity).
  rewrite find_flat, !find_map. unfold archive_best.
  rewrite (find_ext _ (fun wt => version_follows (snd wt))).
  2: { intros [w t]. cbn [fst snd after]. unfold version_follows. fold NUMBER. generalize (ways NUMBER t). intros l. induction l as [|[[w1 g1] t1] l IH]; [reflexivity|]. cbn [map existsb]. rewrite IH. reflexivity. }
  destruct (find (fun wt => version_follows (snd wt)) _) as [[n t]|] eqn:E; [|reflexivity]. cbn [option_map fst snd after].
  rewrite find_map. rewrite (find_ext _ (fun m => any (ways ZIP (left m)))) by (intros [[w1 g1] t1]; reflexivity).
  destruct (find (fun m => any (ways ZIP (left m))) (ways NUMBER t)) as [[[w g] u]|] eqn:F.
  - cbn [option_map]. unfold left. cbn [snd]. apply find_some in F. destruct F as [_ Z]. unfold left in Z. cbn [snd] in Z. unfold best.
    destruct (ways ZIP u) as [|[[w' g'] u'] l] eqn:W; [discriminate|]. cbn [hd_error join]. f_equal.
    assert (g' = []) as -> by (apply (zip_groups u w' g' u'); rewrite W; left; reflexivity). rewrite app_nil_r. reflexivity.
  - reflexivity.
Qed.
Hypothesis digit_word : forall c, uni_digit c = true -> uni_word c = true.
Lemma anyc_all c : anyc c = true.
Proof.
  unfold anyc, Manage_Model.wordc, Manage_Model.digitc. destruct (c <? 128)%N.
  - unfold alnum. destruct (is_digit c); [reflexivity|]. apply orb_true_r.
  - pose proof (digit_word c) as H. destruct (uni_digit c); [rewrite H by reflexivity; reflexivity|apply orb_true_r].
Qed.
Lemma number_zip : number_char 122 = false. Proof. reflexivity. Qed.
Lemma number_unique v r v' r' : Forall (fun c => number_char c = true) v -> Forall (fun c => number_char c = true) v' -> v ++ str ".zip" ++ r = v' ++ str ".zip" ++ r' -> v = v' /\ r = r'.
Proof.
  intros F. revert v'. induction F as [|c v E F IH]; intros v' F' H.
  - destruct F' as [|d v' E' F']; [split; [reflexivity|]; cbn in H; injection H; auto|]. cbn in H. injection H as <- H. destruct F' as [|d v' E'' F']; [discriminate|]. cbn in H. injection H as <- _. discriminate.
  - destruct F' as [|d v' E' F'].
    + cbn in H. injection H as -> H. destruct F as [|d v E'' F]; [discriminate|]. cbn in H. injection H as -> _. discriminate.
    + cbn in H. injection H as <- H. destruct (IH v' F' H) as [-> ->]. split; reflexivity.
Qed.
Theorem archive_unique s n v r n' v' r' : archive_form uni_digit s n v r -> archive_form uni_digit s n' v' r' -> List.length n = List.length n' -> n = n' /\ v = v' /\ r = r'.
Proof.
  intros [E [_ [_ F]]] [E' [_ [_ F']]] L. rewrite E in E'. assert (n = n' /\ str "_" ++ v ++ str ".zip" ++ r = str "_" ++ v' ++ str ".zip" ++ r') as [-> H].
  { clear - E' L. revert n' L E'. induction n as [|c n IH]; intros [|c' n'] L E; try discriminate; [split; [reflexivity|exact E]|]. cbn [app] in E. injection E as -> E. injection L as L. destruct (IH _ L E) as [-> ->]. split; reflexivity. }
  split; [reflexivity|]. cbn [str String.list_ascii_of_string map app] in H. injection H as H. exact (number_unique v r v' r' F F' H).
Qed.
Theorem archive_spec s : match re_match (archive_regex uni_word uni_digit) s with
  | Some g => exists n v r, archive_form uni_digit s n v r /\ group g 1 = Some (n ++ str "_" ++ v) /\ group g 2 = Some n /\ group g 3 = Some v /\
      forall n' v' r', archive_form uni_digit s n' v' r' -> (List.length n' <= List.length n)%nat
  | None => forall n v r, ~ archive_form uni_digit s n v r
  end.
Proof.
  rewrite archive_shape.
  assert (A : forall w, Forall (fun c => anyc c = true) w) by (intros w; apply Forall_forall; intros; apply anyc_all).
  destruct (archive_best s) as [[n t]|] eqn:E.
  - apply find_some_runs in E. destruct E as [-> [N [_ [Q M]]]]. destruct (find (fun m => any (ways ZIP (left m))) (ways NUMBER t)) as [[[w g] u]|] eqn:F.
    + apply find_some in F. destruct F as [I Z]. apply number_ways in I. destruct I as [v [-> [-> [-> [V F]]]]]. unfold left in Z. cbn [snd] in Z. apply zip_any in Z. destruct Z as [r ->].
      exists n, v, r. split; [split; [reflexivity|]; repeat split; assumption|]. split; [reflexivity|]. split; [reflexivity|]. split; [reflexivity|].
      intros n' v' r' [E [N' [V' F']]]. apply (M n' (str "_" ++ v' ++ str ".zip" ++ r')); [exact E|exact N'|apply A|]. apply follows_spec. exists v', r'. split; [reflexivity|]. split; assumption.
    + exfalso. unfold version_follows in Q. apply existsb_exists in Q. destruct Q as [m [I Z]]. pose proof (find_none _ _ F m I). cbn beta in *. congruence.
  - intros n v r [-> [N [V F]]]. pose proof (find_none_runs _ _ _ E n (str "_" ++ v ++ str ".zip" ++ r) eq_refl N (A n)) as Q.
    assert (version_follows (str "_" ++ v ++ str ".zip" ++ r) = true) by (apply follows_spec; exists v, r; split; [reflexivity|]; split; assumption). congruence.
Qed.

(** *** Folders. *)
Local Notation plain_char := (plain_char uni_space).
Definition VERSION : re := Seq (Opt (Seq (is UNDER) (Group 2 (Some1 number_char)))) End.
Lemma end_spec t : ways End t = if pystr_eqb t [] || pystr_eqb t [10%N] then [([], [], t)] else [].
Proof. destruct t as [|c [|d t]]; [reflexivity| |]; cbn [ways pystr_eqb orb andb]; [rewrite andb_true_r; reflexivity|rewrite andb_false_r; reflexivity]. Qed.
Definition ended (t : pystr) : Prop := t = [] \/ t = [10%N].
Lemma end_any t : any (ways End t) = true <-> ended t.
Proof.
  rewrite end_spec. unfold ended. rewrite <- !pystr_eqb_eq. destruct (pystr_eqb t []), (pystr_eqb t [10%N]); cbn; intuition discriminate.
Qed.
Definition NUM2 : re := Seq (is UNDER) (Group 2 (Some1 number_char)).
Lemma num2_ways t w g u : In (w, g, u) (ways NUM2 t) <-> exists v, w = UNDER :: v /\ g = [(2, v)] /\ t = UNDER :: v ++ u /\ v <> [] /\ Forall (fun c => number_char c = true) v.
Proof.
  unfold NUM2. cbn [ways is]. destruct t as [|c t]; [split; [intros []|intros [v [_ [_ [E _]]]]; discriminate]|]. destruct (N.eqb_spec c UNDER) as [->|NE].
  - cbn [flat_map after]. rewrite app_nil_r. split.
    + intros I. apply in_map_iff in I. destruct I as [[[w1 g1] u1] [E I]]. apply in_map_iff in I. destruct I as [[[w2 g2] u2] [E2 I]]. apply in_map_iff in I. destruct I as [[w3 u3] [E3 I]].
      injection E3 as <- <- <-. injection E2 as <- <- <-. injection E as <- <- <-. apply filter_In in I. destruct I as [I N]. apply runs_in in I. destruct I as [-> F].
      exists w3. cbn [fst snd]. split; [reflexivity|]. split; [reflexivity|]. split; [reflexivity|]. split; [|exact F]. intros ->. discriminate.
    + intros [v [-> [-> [E [N F]]]]]. injection E as ->. apply in_map_iff. exists (v, [(2, v)], u). split; [reflexivity|]. apply in_map_iff. exists (v, [], u). split; [reflexivity|]. apply in_map_iff. exists (v, u). split; [reflexivity|].
      apply filter_In. split; [apply runs_in; split; [reflexivity|exact F]|]. destruct v; [congruence|reflexivity].
  - split; [intros []|]. intros [v [_ [_ [E _]]]]. injection E as -> _. congruence.
Qed.
Definition version_end (v e t : pystr) : Prop := t = UNDER :: v ++ e /\ ended e /\ v <> [] /\ Forall (fun c => number_char c = true) v.
Lemma version_spec t : match best VERSION t with
  | Some (w, g, u) => (exists v e, version_end v e t /\ g = [(2, v)]) \/ ended t /\ g = []
  | None => ~ ended t /\ forall v e, ~ version_end v e t end.
Proof.
  unfold VERSION. rewrite best_seq. fold NUM2. change (ways (Opt NUM2) t) with (ways NUM2 t ++ [([], [], t)]). rewrite find_app.
  assert (K : forall m u, ended u -> left m = u -> join m (best End u) = Some m).
  { intros [[w g] u'] u H E. unfold left in E. cbn [snd] in E. subst u'. unfold best. rewrite end_spec. destruct H as [-> | ->]; cbn; rewrite ?app_nil_r; reflexivity. }
  destruct (find _ (ways NUM2 t)) as [[[w g] u]|] eqn:F.
  - apply find_some in F. destruct F as [I Z]. apply num2_ways in I. destruct I as [v [-> [-> [-> [V F]]]]]. unfold left in Z. cbn [snd] in Z. apply end_any in Z.
    rewrite (K _ u Z) by reflexivity. left. exists v, u. split; [|reflexivity]. split; [reflexivity|]. repeat split; assumption.
  - assert (X : forall v e, ~ version_end v e t).
    { intros v e [E [H [V N]]]. pose proof (find_none _ _ F (UNDER :: v, [(2, v)], e)) as Q. cbn beta in Q. unfold left in Q. cbn [snd] in Q. rewrite (proj2 (end_any e) H) in Q.
      discriminate Q. apply num2_ways. exists v. auto. }
    cbn [find]. unfold left at 1. cbn [snd]. destruct (any (ways End t)) eqn:A.
    + apply end_any in A. unfold left. cbn [snd]. rewrite (K ([], [], t) t A) by reflexivity. right. split; [exact A|reflexivity].
    + split; [|exact X]. intros H. apply end_any in H. congruence.
Qed.
Lemma version_any t : any (ways VERSION t) = true <-> ended t \/ exists v e, version_end v e t.
Proof.
  rewrite any_best. pose proof (version_spec t) as H. destruct (best VERSION t) as [[[w g] u]|].
  - split; [intros _|reflexivity]. destruct H as [[v [e [H _]]]|[H _]]; [right; exists v, e; exact H|left; exact H].
  - destruct H as [H1 H2]. split; [discriminate|]. intros [H|[v [e H]]]; [contradiction|]. destruct (H2 v e H).
Qed.
Hypothesis digit_space : forall c, uni_digit c = true -> uni_space c = false.
Lemma number_plain c : number_char c = true -> c <> DOT -> plain_char c = true.
Proof.
  unfold Manage_Spec.number_char, Manage_Spec.plain_char, Manage_Model.digitc, Manage_Model.spacec. intros H N. rewrite (proj2 (N.eqb_neq _ _) N) in *. rewrite orb_false_r in *.
  destruct (c <? 128)%N eqn:L; [|rewrite (digit_space c H); reflexivity]. unfold is_digit, is_space in *. apply andb_true_iff in H. destruct H as [H1 H2]. apply N.leb_le in H1. apply N.leb_le in H2.
  replace (c <=? 13)%N with false by (symmetry; apply N.leb_gt; lia). replace (c <=? 32)%N with false by (symmetry; apply N.leb_gt; lia). rewrite !andb_false_r. reflexivity.
Qed.
Theorem folder_spec s : match re_match (folder_regex uni_digit uni_space) s with
  | Some g => exists n, group g 1 = Some n /\ folder_form uni_digit uni_space s n (group g 2)
  | None => forall n v, ~ folder_form uni_digit uni_space s n v
  end.
Proof.
  set (R := Seq (Group 1 (Some1 plain_char)) VERSION).
  assert (B : re_match (folder_regex uni_digit uni_space) s = match best R s with Some (_, g, _) => Some g | None => None end).
  { change (folder_regex uni_digit uni_space) with R. unfold re_match, best. destruct (ways R s) as [|[[w g] u] l]; reflexivity. }
  rewrite B. clear B. unfold R. rewrite best_seq. cbn [ways]. rewrite !find_map.
  rewrite (find_ext _ (fun wt => any (ways VERSION (snd wt)))) by (intros [w t]; reflexivity).
  destruct (find _ _) as [[n t]|] eqn:E; cbn [option_map fst snd].
  - apply (find_some_runs plain_char (fun t => any (ways VERSION t))) in E. destruct E as [-> [N [P [Q M]]]]. unfold left. cbn [snd].
    pose proof (version_spec t) as V. destruct (best VERSION t) as [[[w g] u]|].
    + cbn [join app]. exists n. split; [reflexivity|]. destruct V as [[v [e [[-> [H [V F]]] ->]]]|[H ->]].
      * cbn [group Nat.eqb]. exists e. split; [exact H|]. split; [split; assumption|]. split; [reflexivity|]. split; [exact V|]. split; [exact F|].
        destruct (in_dec N.eq_dec DOT v) as [I|NI]; [exact I|]. exfalso.
        specialize (M (n ++ UNDER :: v) e). cbn beta in M. rewrite app_length in M. cbn [List.length] in M. 
        assert (L : (List.length n + S (List.length v) <= List.length n)%nat); [|lia]. apply M.
        -- rewrite <- app_assoc. reflexivity.
        -- destruct n; discriminate.
        -- apply Forall_app. split; [exact P|]. constructor; [reflexivity|]. rewrite Forall_forall in *. intros c I. apply number_plain; [apply F; exact I|intros ->; contradiction].
        -- apply version_any. left. exact H.
      * cbn [group Nat.eqb]. exists t. split; [exact H|]. split; [split; assumption|]. reflexivity.
    + destruct V as [V1 V2]. exfalso. apply version_any in Q. destruct Q as [Q|[v [e Q]]]; [contradiction|exact (V2 v e Q)].
  - intros n v [e [H [[N P] X]]]. pose proof (find_none_runs plain_char (fun t => any (ways VERSION t)) s E n) as Q. cbn beta in Q. destruct v as [v|].
    + destruct X as [-> [V [F _]]]. specialize (Q (str "_" ++ v ++ e) eq_refl N P). assert (any (ways VERSION (str "_" ++ v ++ e)) = true); [|congruence]. apply version_any. right. exists v, e. split; [reflexivity|]. repeat split; assumption.
    + subst s. specialize (Q e eq_refl N P). assert (any (ways VERSION e) = true); [|congruence]. apply version_any. left. exact H.
Qed.
Lemma last_under n a n' a' : ~ In UNDER a -> ~ In UNDER a' -> n ++ UNDER :: a = n' ++ UNDER :: a' -> n = n' /\ a = a'.
Proof.
  intros A A'. revert n'. induction n as [|c n IH]; intros [|c' n'] E; cbn [app] in E.
  - injection E as E. split; [reflexivity|exact E].
  - injection E as <- ->. exfalso. apply A. apply in_or_app. right. left. reflexivity.
  - injection E as -> E. exfalso. apply A'. rewrite <- E. apply in_or_app. right. left. reflexivity.
  - injection E as -> E. destruct (IH n' E) as [-> ->]. split; reflexivity.
Qed.
Theorem folder_unique s n v n' v' : folder_form uni_digit uni_space s n v -> folder_form uni_digit uni_space s n' v' -> n = n' /\ v = v'.
Proof.
  assert (P10 : forall e, ended e -> match e with c :: _ => plain_char c = false | [] => True end) by (intros e [-> | ->]; [exact Logic.I|reflexivity]).
  assert (D10 : forall e, ended e -> match e with c :: _ => number_char c = false | [] => True end) by (intros e [-> | ->]; [exact Logic.I|reflexivity]).
  assert (ND : forall n e, Forall (fun c => plain_char c = true) n -> ended e -> ~ In DOT (n ++ e)).
  { intros m e F H I. apply in_app_iff in I. destruct I as [I|I]; [rewrite Forall_forall in F; specialize (F _ I); unfold Manage_Spec.plain_char in F; rewrite orb_true_r in F; discriminate|]. destruct H as [-> | ->]; [destruct I|]. destruct I as [I|[]]. discriminate. }
  assert (NU : forall v e, Forall (fun c => number_char c = true) v -> ended e -> ~ In UNDER (v ++ e)).
  { intros m e F H I. apply in_app_iff in I. destruct I as [I|I]; [rewrite Forall_forall in F; specialize (F _ I); discriminate|]. destruct H as [-> | ->]; [destruct I|]. destruct I as [I|[]]. discriminate. }
  intros [e [H [[N P] X]]] [e' [H' [[N' P'] X']]]. destruct v as [v|], v' as [v'|].
  - destruct X as [-> [V [F D]]], X' as [E [V' [F' D']]]. apply (last_under n (v ++ e) n' (v' ++ e')) in E; [|apply NU; assumption|apply NU; assumption]. destruct E as [-> E].
    split; [reflexivity|]. f_equal. destruct (take_stop number_char v e F (D10 e H)) as [T _]. destruct (take_stop number_char v' e' F' (D10 e' H')) as [T' _]. rewrite <- T, <- T', E. reflexivity.
  - exfalso. destruct X as [-> [V [F D]]]. apply (ND n' e' P' H'). rewrite <- X'. apply in_or_app. right. apply in_or_app. right. apply in_or_app. left. exact D.
  - exfalso. destruct X' as [-> [V [F D]]]. apply (ND n e P H). rewrite <- X. apply in_or_app. right. apply in_or_app. right. apply in_or_app. left. exact D.
  - split; [|reflexivity]. subst s. destruct (take_stop plain_char n e P (P10 e H)) as [T _]. destruct (take_stop plain_char n' e' P' (P10 e' H')) as [T' _]. rewrite <- T, <- T', X'. reflexivity.
Qed.

(** *** Making mods. *)
Local Notation scan := (scan uni_word uni_digit).
Local Notation deps_are := (deps_are uni_word uni_digit).
Local Notation rewrite_all := (Manage_Model.rewrite uni_word uni_digit).
Lemma rewrite_texts l ds : snd (rewrite_all (map Text l)) = Ok ds <-> Forall2 (fun s d => scan (no_spaces s) = Some d) l ds.
Proof.
  revert ds. induction l as [|s l IH]; intros ds; cbn [map Manage_Model.rewrite].
  - split; [intros E; injection E as <-; constructor|intros F; inversion F; reflexivity].
  - rewrite read_scan. destruct (scan (no_spaces s)) as [d|] eqn:S.
    + destruct (rewrite_all (map Text l)) as [done r]. cbn [snd] in *. split.
      * intros E. destruct r as [ds'|]; [|discriminate]. injection E as <-. constructor; [exact S|]. apply IH. reflexivity.
      * intros F. inversion F as [|? d' ? ds' E F']; subst. apply IH in F'. rewrite F'. congruence.
    + cbn [snd]. split; [discriminate|]. intros F. inversion F; subst. congruence.
Qed.
Lemma rewrite_err l : (exists ds, snd (rewrite_all (map Text l)) = Ok ds) \/ snd (rewrite_all (map Text l)) = Err TypeError.
Proof.
  induction l as [|s l IH]; [left; eexists; reflexivity|]. cbn [map Manage_Model.rewrite]. rewrite read_scan. destruct (scan (no_spaces s)) as [d|]; [|right; reflexivity].
  destruct (rewrite_all (map Text l)) as [done r]. cbn [snd] in *. destruct IH as [[ds ->]| ->]; [left; eexists; reflexivity|right; reflexivity].
Qed.
Definition used_default : list entry := [Done base_dep].
Lemma rewrite_first : rewrite_all first_default = (used_default, Ok [base_dep]).
Proof. reflexivity. Qed.
Lemma rewrite_used : rewrite_all used_default = (used_default, Err AttributeError).
Proof. reflexivity. Qed.
Lemma has_in i k : has i k = true <-> In k (i_keys i).
Proof.
  unfold has. rewrite existsb_exists. split; [intros [x [I E]]; apply pystr_eqb_eq in E; subst; exact I|]. intros I. exists k. split; [exact I|apply pystr_eqb_refl].
Qed.
Lemma acceptable_dec i : acceptable i <->
  existsb (has i) [str "location"; str "stages"; str "enabled"; str "self"] = false /\ forallb (has i) [str "name"; str "title"; str "author"] = true.
Proof.
  unfold acceptable. generalize [str "location"; str "stages"; str "enabled"; str "self"]. generalize [str "name"; str "title"; str "author"]. intros l2 l1. rewrite forallb_forall. split.
  - intros [A B]. split; [|intros k I; apply has_in, B, I]. destruct (existsb (has i) l1) eqn:E; [|reflexivity]. apply existsb_exists in E. destruct E as [k [I H]]. apply has_in in H. destruct (A k I H).
  - intros [A B]. split; [|intros k I; apply has_in, B, I]. intros k I H. apply has_in in H. assert (existsb (has i) l1 = true) by (apply existsb_exists; exists k; auto). congruence.
Qed.
Local Notation make_mod := (make_mod uni_word uni_digit).
Local Notation make_all := (make_all uni_word uni_digit).
Local Notation made_as := (made_as uni_word uni_digit).
(** One mod, and what becomes of the default. *)
Lemma make_given dflt loc st i b a m d' : lacks i = false ->
  (make_mod dflt loc st i b a = (d', Ok m) <-> d' = dflt /\ made_as (loc, st, i, b, a) m).
Proof.
  unfold lacks, Manage_Model.make_mod, Manage_Spec.made_as, Manage_Spec.deps_are. rewrite acceptable_dec. destruct (existsb _ _); [intros _; split; [discriminate|intros [_ [[X _] _]]; discriminate]|].
  destruct (forallb _ _); cbn [negb]; [|intros _; split; [discriminate|intros [_ [[_ X] _]]; discriminate]].
  destruct (i_deps i) as [l|]; [|discriminate]. intros _. split.
  - destruct (snd (rewrite_all (map Text l))) as [ds|] eqn:E; [|discriminate]. cbn [bind]. intros X; injection X as <- <-. apply rewrite_texts in E. split; [reflexivity|]. split; [auto|]. exists ds. split; [exact E|reflexivity].
  - intros [-> [_ [ds [F ->]]]]. apply rewrite_texts in F. rewrite F. reflexivity.
Qed.
Lemma make_lacking loc st i b a m d' : lacks i = true ->
  (make_mod first_default loc st i b a = (d', Ok m) <-> d' = used_default /\ made_as (loc, st, i, b, a) m).
Proof.
  unfold lacks, Manage_Model.make_mod, Manage_Spec.made_as, Manage_Spec.deps_are. rewrite acceptable_dec. destruct (existsb _ _); [intros _; split; [discriminate|intros [_ [[X _] _]]; discriminate]|].
  destruct (forallb _ _); cbn [negb]; [|intros _; split; [discriminate|intros [_ [[_ X] _]]; discriminate]].
  destruct (i_deps i) as [l|]; [discriminate|]. intros _. rewrite rewrite_first. cbn [bind]. split.
  - intros X; injection X as <- <-. split; [reflexivity|]. split; [auto|]. exists [base_dep]. split; reflexivity.
  - intros [-> [_ [ds [-> ->]]]]. reflexivity.
Qed.
Lemma make_used loc st i b a m : lacks i = true -> snd (make_mod used_default loc st i b a) <> Ok m.
Proof.
  unfold lacks, Manage_Model.make_mod. destruct (existsb _ _); [discriminate|]. destruct (forallb _ _); cbn [negb]; [|discriminate]. destruct (i_deps i) as [l|]; [discriminate|]. intros _. rewrite rewrite_used. discriminate.
Qed.
Lemma make_all_used l ms : make_all used_default l = Ok ms <-> Forall2 made_as l ms /\ (lacking l = 0)%nat.
Proof.
  revert ms. induction l as [|[[[[loc st] i] b] a] l IH]; intros ms; cbn [Manage_Model.make_all].
  - split; [intros E; injection E as <-; split; [constructor|reflexivity]|intros [F _]; inversion F; reflexivity].
  - unfold lacking. cbn [filter fst snd]. destruct (lacks i) eqn:L.
    + cbn [List.length]. split; [|intros [_ X]; discriminate]. destruct (make_mod used_default loc st i b a) as [d r] eqn:E. destruct r as [m|]; [|discriminate]. exfalso. apply (make_used loc st i b a m L). rewrite E. reflexivity.
    + fold (lacking l). destruct (make_mod used_default loc st i b a) as [d r] eqn:E. split.
      * destruct r as [m|]; [|discriminate]. cbn [bind]. apply (make_given _ _ _ _ _ _ _ _ L) in E. destruct E as [-> M]. destruct (make_all used_default l) as [ms'|] eqn:R; [|discriminate]. cbn [bind]. intros X; injection X as <-.
        destruct (proj1 (IH ms') eq_refl) as [F Z]. split; [constructor; assumption|exact Z].
      * intros [F Z]. inversion F as [|? m ? ms' M F']; subst. assert (E' : make_mod used_default loc st i b a = (used_default, Ok m)) by (apply make_given; auto). rewrite E in E'. injection E' as -> ->. cbn [bind].
        rewrite (proj2 (IH ms') (Logic.conj F' Z)). reflexivity.
Qed.
(** Mods are made exactly if at most one leaves its dependencies out. *)
Theorem make_all_spec l ms : make_all first_default l = Ok ms <-> Forall2 made_as l ms /\ (lacking l <= 1)%nat.
Proof.
  revert ms. induction l as [|[[[[loc st] i] b] a] l IH]; intros ms; cbn [Manage_Model.make_all].
  - split; [intros E; injection E as <-; split; [constructor|apply Nat.le_0_l]|intros [F _]; inversion F; reflexivity].
  - unfold lacking. cbn [filter fst snd]. destruct (make_mod first_default loc st i b a) as [d r] eqn:E. destruct (lacks i) eqn:L.
    + cbn [List.length]. fold (lacking l). split.
      * destruct r as [m|]; [|discriminate]. cbn [bind]. apply (make_lacking _ _ _ _ _ _ _ L) in E. destruct E as [-> M]. destruct (make_all used_default l) as [ms'|] eqn:R; [|discriminate]. cbn [bind]. intros X; injection X as <-.
        apply make_all_used in R. destruct R as [F Z]. split; [constructor; assumption|lia].
      * intros [F Z]. inversion F as [|? m ? ms' M F']; subst. assert (E' : make_mod first_default loc st i b a = (used_default, Ok m)) by (apply make_lacking; auto). rewrite E in E'. injection E' as -> ->. cbn [bind].
        rewrite (proj2 (make_all_used l ms')) by (split; [exact F'|lia]). reflexivity.
    + fold (lacking l). split.
      * destruct r as [m|]; [|discriminate]. cbn [bind]. apply (make_given _ _ _ _ _ _ _ _ L) in E. destruct E as [-> M]. destruct (make_all first_default l) as [ms'|] eqn:R; [|discriminate]. cbn [bind]. intros X; injection X as <-.
        destruct (proj1 (IH ms') eq_refl) as [F Z]. split; [constructor; assumption|exact Z].
      * intros [F Z]. inversion F as [|? m ? ms' M F']; subst. assert (E' : make_mod first_default loc st i b a = (first_default, Ok m)) by (apply make_given; auto). rewrite E in E'. injection E' as -> ->. cbn [bind].
        rewrite (proj2 (IH ms') (Logic.conj F' Z)). reflexivity.
Qed.
Theorem two_lacking loc st i b a loc' st' i' b' a' : acceptable i -> acceptable i' -> i_deps i = None -> i_deps i' = None ->
  make_all first_default [(loc, st, i, b, a); (loc', st', i', b', a')] = Err AttributeError.
Proof.
  intros A A' D D'. cbn [Manage_Model.make_all]. unfold Manage_Model.make_mod. apply acceptable_dec in A. apply acceptable_dec in A'. destruct A as [-> ->], A' as [-> ->]. rewrite D, D'. reflexivity.
Qed.
End Unicode.

(** *** Paths. *)
Local Notation notslash := (fun c => negb (N.eqb c SLASH)).
Lemma rev_take_drop p (s : pystr) : s = rev (drop_while p (rev s)) ++ rev (take_while p (rev s)).
Proof. rewrite <- rev_app_distr, take_drop, rev_involutive. reflexivity. Qed.
Lemma part_app a b : ~ In SLASH a -> first_part (a ++ b) = a ++ first_part b.
Proof.
  unfold first_part. induction a as [|c a IH]; [reflexivity|]. intros N. cbn [app take_while]. destruct (N.eqb_spec c SLASH) as [->|]; [exfalso; apply N; left; reflexivity|]. cbn [negb]. rewrite IH; [reflexivity|]. intros I. apply N. right. exact I.
Qed.
Lemma part_stop a b : first_part (a ++ SLASH :: b) = first_part a.
Proof.
  unfold first_part. induction a as [|c a IH]; [reflexivity|]. cbn [app take_while]. destruct (negb (c =? SLASH)%N); [rewrite IH; reflexivity|reflexivity].
Qed.
Lemma no_slash s : ~ In SLASH s -> first_part s = s.
Proof. intros N. rewrite <- (app_nil_r s) at 1. rewrite part_app by exact N. apply app_nil_r. Qed.
(** One step: either the name has no slash, or it is shortened and keeps its first part. *)
Lemma split_step s : clean s ->
  (~ In SLASH s /\ path_split s = ([], s)) \/
  (exists h b, path_split s = (h, b) /\ clean h /\ (List.length h < List.length s)%nat /\ first_part h = first_part s).
Proof.
  intros C. unfold path_split.
  pose proof (rev_take_drop notslash s) as E. pose proof (take_all notslash (rev s)) as T. pose proof (drop_head notslash (rev s)) as D.
  set (tail := take_while notslash (rev s)) in *. set (head := drop_while notslash (rev s)) in *. clearbody tail head.
  destruct head as [|c head].
  - left. cbn [rev app drop_while] in *. subst s. split; [|reflexivity]. intros I. apply in_rev in I. rewrite Forall_forall in T. specialize (T _ I). cbn in T. discriminate.
  - right. specialize (D c head eq_refl). apply negb_false_iff, N.eqb_eq in D. subst c.
    pose proof (rev_take_drop (N.eqb SLASH) (rev (SLASH :: head))) as H. rewrite rev_involutive in H.
    pose proof (drop_head (N.eqb SLASH) (SLASH :: head)) as DH. pose proof (take_all (N.eqb SLASH) (SLASH :: head)) as TH.
    set (h := drop_while (N.eqb SLASH) (SLASH :: head)) in *.
    assert (TN : exists u, rev (take_while (N.eqb SLASH) (SLASH :: head)) = SLASH :: u).
    { cbn [take_while]. change (SLASH =? SLASH)%N with true. cbn iota. destruct (rev (SLASH :: take_while (N.eqb SLASH) head)) as [|x u] eqn:R; [apply (f_equal (@List.length N)) in R; rewrite rev_length in R; discriminate|].
      exists u. f_equal. cbn [take_while] in TH. change (SLASH =? SLASH)%N with true in TH. cbn iota in TH. rewrite Forall_forall in TH. assert (I : In x (SLASH :: take_while (N.eqb SLASH) head)) by (apply in_rev; rewrite R; left; reflexivity). apply TH in I. apply N.eqb_eq in I. congruence. }
    destruct TN as [u U]. rewrite U in H. clear U TH. clearbody h.
    destruct h as [|x h].
    + exfalso. cbn [rev app] in H. change (rev (SLASH :: head)) with (rev head ++ [SLASH]) in E. rewrite E in C. cbn [rev] in H. rewrite H in C. cbn [app clean] in C. congruence.
    + exists (rev (x :: h)), (rev tail). split; [reflexivity|]. rewrite E, H.
      assert (CH : clean (rev (x :: h))).
      { rewrite E, H in C. destruct (rev (x :: h)) as [|y l] eqn:R; [apply (f_equal (@List.length N)) in R; rewrite rev_length in R; discriminate|]. exact C. }
      split; [exact CH|]. split; [rewrite !app_length; cbn [List.length]; lia|]. rewrite <- app_assoc. cbn [app]. symmetry. apply part_stop.
Qed.
Theorem topdir_spec s : clean s -> forall fuel base, (List.length s <= fuel)%nat -> topdir fuel base s = Ok (Some (first_part s)).
Proof.
  remember (List.length s) as n eqn:L. revert s L. induction n as [n IH] using lt_wf_ind. intros s -> C fuel base F. destruct s as [|c s]; [destruct C|]. cbn [List.length] in F. destruct fuel as [|fuel]; [lia|]. cbn [topdir].
  destruct (split_step (c :: s) C) as [[N ->]|[h [b [-> [CH [LT P]]]]]].
  - destruct fuel; cbn [topdir]; rewrite (no_slash _ N); reflexivity.
  - rewrite <- P. apply (IH (List.length h) LT h eq_refl CH). cbn [List.length] in LT. lia.
Qed.
Theorem topdir_forever s : forall fuel base, topdir fuel base (SLASH :: s) = Err OutOfFuel.
Proof.
  intros fuel. revert s. induction fuel as [|fuel IH]; intros s base; [reflexivity|]. cbn [topdir].
  assert (H : exists h, fst (path_split (SLASH :: s)) = SLASH :: h).
  { unfold path_split. cbn [fst]. pose proof (rev_take_drop notslash (SLASH :: s)) as E. pose proof (take_all notslash (rev (SLASH :: s))) as T.
    set (head := drop_while notslash (rev (SLASH :: s))) in *. set (tail := take_while notslash (rev (SLASH :: s))) in *. clearbody head tail.
    assert (HN : exists h, rev head = SLASH :: h).
    { destruct (rev head) as [|x h] eqn:R; [|exists h; cbn [app] in E; injection E as <- _; reflexivity]. exfalso. cbn [app] in E. assert (I : In SLASH tail) by (apply in_rev; rewrite <- E; left; reflexivity). rewrite Forall_forall in T. apply T in I. discriminate. }
    destruct HN as [h HN]. destruct (drop_while (N.eqb SLASH) head) as [|x d] eqn:D; [exists h; exact HN|].
    pose proof (rev_take_drop (N.eqb SLASH) (rev head)) as E2. rewrite rev_involutive, D, HN in E2. destruct (rev (x :: d)) as [|y l] eqn:R; [apply (f_equal (@List.length N)) in R; rewrite rev_length in R; discriminate|].
    exists l. cbn [app] in E2. injection E2 as <- _. reflexivity. }
  destruct H as [h H]. destruct (path_split (SLASH :: s)) as [h' b]. cbn [fst] in H. subst h'. apply IH.
Qed.
Lemma set_add_some dirs x : set_add (map Some dirs) (Some x) = map Some (if existsb (pystr_eqb x) dirs then dirs else dirs ++ [x]).
Proof.
  unfold set_add. replace (existsb (opt_eqb (Some x)) (map Some dirs)) with (existsb (pystr_eqb x) dirs) by (induction dirs as [|d l IH]; [reflexivity|]; cbn [map existsb]; rewrite IH; reflexivity).
  destruct (existsb _ _); [reflexivity|]. rewrite map_app. reflexivity.
Qed.
Lemma existsb_in x dirs : existsb (pystr_eqb x) dirs = true <-> In x dirs.
Proof. rewrite existsb_exists. split; [intros [y [I E]]; apply pystr_eqb_eq in E; subst; exact I|intros I; exists x; split; [exact I|apply pystr_eqb_refl]]. Qed.
Lemma nodup_snoc (l : list pystr) x : NoDup l -> ~ In x l -> NoDup (l ++ [x]).
Proof. intros N I. apply NoDup_rev in N. rewrite <- (rev_involutive (l ++ [x])). apply NoDup_rev. rewrite rev_app_distr. cbn. constructor; [rewrite <- in_rev; exact I|exact N]. Qed.
Lemma topdirs_from fuel files : Forall (fun f => clean f /\ (List.length f <= fuel)%nat) files -> forall acc, NoDup acc ->
  exists dirs, topdirs fuel (map Some acc) files = Ok (map Some dirs) /\ NoDup dirs /\ forall d, In d dirs <-> In d acc \/ exists f, In f files /\ first_part f = d.
Proof.
  intros F. induction F as [|f files [C L] F IH]; intros acc N; cbn [topdirs].
  - exists acc. split; [reflexivity|]. split; [exact N|]. intros d. split; [auto|]. intros [I|[f [[] _]]]. exact I.
  - rewrite (topdir_spec f C fuel None L). cbn [bind]. rewrite set_add_some. set (acc' := if existsb (pystr_eqb (first_part f)) acc then acc else acc ++ [first_part f]).
    assert (A : NoDup acc' /\ forall d, In d acc' <-> In d acc \/ first_part f = d).
    { unfold acc'. destruct (existsb (pystr_eqb (first_part f)) acc) eqn:E.
      - apply existsb_in in E. split; [exact N|]. intros d. split; [auto|]. intros [I|<-]; assumption.
      - assert (NI : ~ In (first_part f) acc) by (intros I; apply existsb_in in I; congruence). split; [apply nodup_snoc; assumption|]. intros d. rewrite in_app_iff. cbn [In]. tauto. }
    destruct A as [A1 A2]. destruct (IH acc' A1) as [dirs [E [ND M]]]. exists dirs. split; [exact E|]. split; [exact ND|]. intros d. rewrite M, A2. split.
    + intros [[I|<-]|[g [I P]]]; [auto|right; exists f; split; [left; reflexivity|reflexivity]|right; exists g; split; [right; exact I|exact P]].
    + intros [I|[g [[<-|I] P]]]; [auto|auto|right; exists g; auto].
Qed.
Theorem topdirs_spec fuel files : Forall (fun f => clean f /\ (List.length f <= fuel)%nat) files ->
  exists dirs, topdirs fuel [] files = Ok (map Some dirs) /\ NoDup dirs /\ forall d, In d dirs <-> exists f, In f files /\ first_part f = d.
Proof.
  intros F. destruct (topdirs_from fuel files F [] (NoDup_nil _)) as [dirs [E [N M]]]. exists dirs. split; [exact E|]. split; [exact N|]. intros d. rewrite M. cbn [In]. tauto.
Qed.
Theorem topdirs_slash fuel files : (exists f, In (SLASH :: f) files) -> forall acc, topdirs fuel acc files = Err OutOfFuel.
Proof.
  induction files as [|g files IH]; intros [f I] acc; [destruct I|]. cbn [topdirs]. destruct I as [->|I]; [rewrite topdir_forever; reflexivity|].
  destruct (topdir fuel None g) as [b|e] eqn:E; cbn [bind]; [apply IH; exists f; exact I|].
  assert (e = OutOfFuel); [|congruence]. clear - E. revert E. generalize (@None pystr). revert g. induction fuel as [|fuel IH]; intros g b E; destruct g as [|c g]; cbn [topdir] in E; try discriminate; [congruence|]. destruct (path_split (c :: g)) as [h x]. exact (IH _ _ E).
Qed.
Lemma map_some dirs : map_result (fun d : option pystr => match d with Some s => Ok s | None => Err TypeError end) (map Some dirs) = Ok dirs.
Proof. induction dirs as [|d l IH]; [reflexivity|]. cbn [map map_result bind]. rewrite IH. reflexivity. Qed.
Lemma exists_opt x dirs : existsb (opt_eqb (Some x)) (map Some dirs) = existsb (pystr_eqb x) dirs.
Proof. induction dirs as [|d l IH]; [reflexivity|]. cbn [map existsb opt_eqb]. rewrite IH. reflexivity. Qed.
Lemma filter_one {A} (f : A -> bool) l x : NoDup l -> (filter f l = [x] <-> In x l /\ f x = true /\ forall y, In y l -> f y = true -> y = x).
Proof.
  intros N. split.
  - intros E. assert (I : In x (filter f l)) by (rewrite E; left; reflexivity). apply filter_In in I. destruct I as [I F]. split; [exact I|]. split; [exact F|]. intros y J G.
    assert (K : In y (filter f l)) by (apply filter_In; auto). rewrite E in K. destruct K as [K|[]]. congruence.
  - intros [I [F U]]. induction N as [|a l NI N IH]; [destruct I|]. cbn [filter]. destruct I as [->|I].
    + rewrite F. f_equal. destruct (filter f l) as [|y r] eqn:E; [reflexivity|]. assert (J : In y (filter f l)) by (rewrite E; left; reflexivity). apply filter_In in J. destruct J as [J G]. exfalso. apply NI. rewrite <- (U y (or_intror J) G). exact J.
    + destruct (f a) eqn:G; [exfalso; apply NI; rewrite (U a (or_introl eq_refl) G); exact I|]. apply IH; [exact I|]. intros y J. apply U. right. exact J.
Qed.
(** The folder chosen is the one that is meant. *)
Theorem folder_meant fn dirs d : NoDup dirs -> (mod_folder fn (map Some dirs) = Ok d <-> meant fn dirs d).
Proof.
  intros N. destruct dirs as [|x [|y l]].
  - cbn. split; [discriminate|]. unfold meant. cbn [In]. intros [X|[[_ [[] _]]|[_ [_ [[] _]]]]]. discriminate.
  - cbn. unfold meant. cbn [List.length]. split; [intros E; injection E as <-; left; reflexivity|]. intros [E|[[X _]|[X _]]]; [injection E as <-; reflexivity|congruence|congruence].
  - set (dirs := x :: y :: l) in *.
    assert (L : List.length dirs <> 1) by discriminate.
    assert (E : mod_folder fn (map Some dirs) = if existsb (pystr_eqb fn) dirs then Ok fn else match filter (fun s => pystr_eqb (simplified s) (simplified fn)) dirs with [s] => Ok s | _ => Err DraftsmanError end).
    { change (mod_folder fn (map Some dirs)) with (if existsb (opt_eqb (Some fn)) (map Some dirs) then Ok fn else
        let* names := map_result (fun d : option pystr => match d with Some s => Ok s | None => Err TypeError end) (map Some dirs) in
        match filter (fun s => pystr_eqb (simplified s) (simplified fn)) names with [s] => Ok s | _ => Err DraftsmanError end).
      rewrite exists_opt, map_some. reflexivity. }
    rewrite E. clear E. clearbody dirs. destruct (existsb (pystr_eqb fn) dirs) eqn:X.
    + apply existsb_in in X. unfold meant. split; [intros E; injection E as <-; right; left; auto|]. intros [->|[[_ [_ ->]]|[_ [NI _]]]]; [destruct X as [->|[]]; reflexivity|reflexivity|contradiction].
    + assert (NI : ~ In fn dirs) by (intros I; apply existsb_in in I; congruence).
      assert (K : filter (fun s => pystr_eqb (simplified s) (simplified fn)) dirs = [d] <-> meant fn dirs d).
      { rewrite (filter_one _ dirs d N). unfold meant. split.
        - intros [I [F U]]. right. right. apply pystr_eqb_eq in F. repeat split; auto. intros d' J G. apply U; [exact J|]. apply pystr_eqb_eq. exact G.
        - intros [->|[[_ [I _]]|[_ [_ [I [F U]]]]]]; [cbn in L; congruence|contradiction|]. split; [exact I|]. split; [apply pystr_eqb_eq; exact F|]. intros d' J G. apply U; [exact J|]. apply pystr_eqb_eq. exact G. }
      rewrite <- K. destruct (filter _ dirs) as [|a [|b r]]; split; try discriminate; intros E; injection E as ->; reflexivity.
Qed.
Theorem folder_fails fn dirs e : mod_folder fn (map Some dirs) = Err e -> e = DraftsmanError.
Proof.
  unfold mod_folder. rewrite exists_opt, map_some. cbn [bind]. destruct (map Some dirs) as [|[a|] [|b r]] eqn:M; try discriminate.
  - destruct (existsb _ _); [discriminate|]. destruct (filter _ _) as [|x [|y z]]; intros E; try discriminate; congruence.
  - destruct (existsb _ _); [discriminate|]. destruct (filter _ _) as [|x [|y z]]; intros E; try discriminate; congruence.
  - destruct dirs; discriminate.
  - destruct (existsb _ _); [discriminate|]. destruct (filter _ _) as [|x [|y z]]; intros E; try discriminate; congruence.
Qed.
Lemma meant_perm fn l l' d : Permutation l l' -> meant fn l d -> meant fn l' d.
Proof.
  intros P. pose proof (Permutation_length P) as L. assert (I : forall x, In x l <-> In x l') by (intros x; split; apply Permutation_in; [exact P|apply Permutation_sym; exact P]).
  unfold meant. rewrite L. intros [->|[[A [B C]]|[A [B [C [D E]]]]]].
  - left. apply Permutation_length_1_inv in P. exact P.
  - right. left. rewrite <- I. auto.
  - right. right. rewrite <- !I. repeat split; auto. intros d' J. apply E. apply I. exact J.
Qed.
(** The order in which the set is listed makes no difference. *)
Theorem folder_order fn l l' : NoDup l -> Permutation l l' -> mod_folder fn (map Some l) = mod_folder fn (map Some l').
Proof.
  intros N P. pose proof (Permutation_NoDup P N) as N'.
  destruct (mod_folder fn (map Some l)) as [d|e] eqn:E, (mod_folder fn (map Some l')) as [d'|e'] eqn:E'.
  - apply folder_meant in E; [|exact N]. apply (meant_perm _ _ _ _ P) in E. apply folder_meant in E; [|exact N']. congruence.
  - apply folder_meant in E; [|exact N]. apply (meant_perm _ _ _ _ P) in E. apply folder_meant in E; [|exact N']. congruence.
  - apply folder_meant in E'; [|exact N']. apply (meant_perm _ _ _ _ (Permutation_sym P)) in E'. apply folder_meant in E'; [|exact N]. congruence.
  - apply folder_fails in E. apply folder_fails in E'. congruence.
Qed.

(** *** mod-list.json. *)
Lemma set_first_ok l n b : all_named l -> (exists i, first_named l i n) -> exists l', set_first l n b = Ok l' /\ List.length l' = List.length l /\ all_named l' /\
  forall i e, nth_error l i = Some e -> exists e', nth_error l' i = Some e' /\ l_name e' = l_name e /\ l_rest e' = l_rest e /\
    (first_named l i n -> l_enabled e' = Some b) /\ (~ first_named l i n -> e' = e).
Proof.
  intros A. induction A as [|e l E A IH]; intros [i F].
  - destruct F as [[e [F _]] _]. destruct i; discriminate.
  - cbn [set_first]. destruct (l_name e) as [m|] eqn:M; [|congruence]. destruct (pystr_eqb m n) eqn:Q.
    + apply pystr_eqb_eq in Q. subst m. eexists. split; [reflexivity|]. split; [reflexivity|]. split; [constructor; [cbn [l_name]; discriminate|exact A]|].
      assert (F0 : first_named (e :: l) 0 n) by (split; [exists e; auto|intros j e' J; lia]).
      intros [|j] e' N; cbn [nth_error] in N |- *.
      * injection N as <-. eexists. split; [reflexivity|]. cbn [l_name l_rest l_enabled]. repeat split; auto. intros X. contradiction.
      * exists e'. split; [exact N|]. repeat split; auto. intros [_ X]. exfalso. apply (X 0 e); [lia|reflexivity|exact M].
    + assert (NE : l_name e <> Some n) by (rewrite M; intros X; injection X as ->; rewrite pystr_eqb_refl in Q; discriminate).
      assert (S : forall j, first_named (e :: l) (S j) n <-> first_named l j n).
      { intros j. unfold first_named. cbn [nth_error]. split.
        - intros [X Y]. split; [exact X|]. intros k e' K N. apply (Y (S k) e'); [lia|exact N].
        - intros [X Y]. split; [exact X|]. intros [|k] e' K N; [cbn in N; injection N as <-; exact NE|]. apply (Y k e'); [lia|exact N]. }
      assert (N0 : ~ first_named (e :: l) 0 n) by (intros [[e' [X Y]] _]; cbn in X; injection X as <-; contradiction).
      destruct i as [|i]; [contradiction|]. destruct IH as [l' [-> [L [AN P]]]]; [exists i; apply S; exact F|]. cbn [bind]. eexists. split; [reflexivity|]. split; [cbn; rewrite L; reflexivity|].
      split; [constructor; [rewrite M; exact E|exact AN]|]. intros [|j] e' N; cbn [nth_error] in N |- *.
      * injection N as <-. exists e. repeat split; auto. intros X. contradiction.
      * destruct (P j e' N) as [e'' [Q1 [Q2 [Q3 [Q4 Q5]]]]]. exists e''. rewrite S. auto.
Qed.
Lemma set_first_missing l n b : all_named l -> ~ (exists i, first_named l i n) -> set_first l n b = Err StopIteration.
Proof.
  intros A. induction A as [|e l E A IH]; [reflexivity|]. intros N. cbn [set_first]. destruct (l_name e) as [m|] eqn:M; [|congruence]. destruct (pystr_eqb m n) eqn:Q.
  - exfalso. apply N. exists 0. apply pystr_eqb_eq in Q. subst m. split; [exists e; auto|intros; lia].
  - rewrite IH; [reflexivity|]. intros [i [X Y]]. apply N. exists (S i). split; [exact X|]. intros [|j] e' L J; [cbn in J; injection J as <-; rewrite M; intros Z; injection Z as ->; rewrite pystr_eqb_refl in Q; discriminate|]. apply (Y j e'); [lia|exact J].
Qed.
Lemma changed_first l l' names b : changed l l' names b -> forall i n, first_named l' i n <-> first_named l i n.
Proof.
  intros [L P] i n. unfold first_named.
  assert (K : forall j e', nth_error l' j = Some e' -> exists e, nth_error l j = Some e /\ l_name e' = l_name e).
  { intros j e' H. destruct (nth_error l j) as [e|] eqn:E.
    - destruct (P j e E) as [e'' [Q [R _]]]. exists e. split; [reflexivity|congruence].
    - apply nth_error_None in E. assert (nth_error l' j = None) by (apply nth_error_None; rewrite L; exact E). congruence. }
  split; intros [[e [A B]] C].
  - destruct (K i e A) as [e0 [A0 B0]]. split; [exists e0; split; [exact A0|congruence]|]. intros j e' J H. destruct (P j e' H) as [e'' [Q [R _]]]. rewrite <- R. exact (C j e'' J Q).
  - destruct (P i e A) as [e0 [A0 [B0 _]]]. split; [exists e0; split; [exact A0|congruence]|]. intros j e' J H. destruct (K j e' H) as [e'' [Q R]]. rewrite R. exact (C j e'' J Q).
Qed.
Lemma changed_named l l' names b : changed l l' names b -> all_named l -> all_named l'.
Proof.
  intros [L P] A. unfold all_named in *. rewrite Forall_forall in *. intros e' I. apply In_nth_error in I. destruct I as [i H]. destruct (nth_error l i) as [e|] eqn:E.
  - destruct (P i e E) as [e'' [Q [R _]]]. assert (e'' = e') by congruence. subst e''. rewrite R. apply A. eapply nth_error_In. exact E.
  - apply nth_error_None in E. assert (nth_error l' i = None) by (apply nth_error_None; rewrite L; exact E). congruence.
Qed.
Lemma first_dec l i n : first_named l i n \/ ~ first_named l i n.
Proof.
  revert i. induction l as [|e l IH]; intros i.
  - right. intros [[e [X _]] _]. destruct i; discriminate.
  - destruct i as [|i].
    + destruct (l_name e) as [m|] eqn:M; [destruct (pystr_eq_dec m n) as [->|NE]|].
      * left. split; [exists e; auto|intros; lia].
      * right. intros [[e' [X Y]] _]. cbn in X. injection X as <-. congruence.
      * right. intros [[e' [X Y]] _]. cbn in X. injection X as <-. congruence.
    + assert (D : l_name e = Some n \/ l_name e <> Some n) by (destruct (l_name e) as [m|]; [destruct (pystr_eq_dec m n) as [->|NE]; [left; reflexivity|right; congruence]|right; discriminate]).
      destruct D as [D|D]; [right; intros [_ Y]; apply (Y 0 e); [lia|reflexivity|exact D]|].
      destruct (IH i) as [[X Y]|N]; [left|right].
      * split; [exact X|]. intros [|j] e' J H; [cbn in H; injection H as <-; exact D|]. apply (Y j e'); [lia|exact H].
      * intros [X Y]. apply N. split; [exact X|]. intros j e' J H. apply (Y (S j) e'); [lia|exact H].
Qed.
Lemma some_first_dec l i names : (exists n, In n names /\ first_named l i n) \/ ~ (exists n, In n names /\ first_named l i n).
Proof.
  induction names as [|m names IH]; [right; intros [n [[] _]]|]. destruct (first_dec l i m) as [F|F]; [left; exists m; split; [left; reflexivity|exact F]|].
  destruct IH as [[n [I G]]|N]; [left; exists n; split; [right; exact I|exact G]|right]. intros [n [[<-|I] G]]; [contradiction|apply N; exists n; auto].
Qed.
Lemma set_each_ok names b : forall l, all_named l -> (forall n, In n names -> exists i, first_named l i n) -> exists l', set_each l names b = Ok l' /\ changed l l' names b.
Proof.
  induction names as [|m names IH]; intros l A H; cbn [set_each].
  - exists l. split; [reflexivity|]. split; [reflexivity|]. intros i e E. exists e. repeat split; auto. intros [n [[] _]].
  - destruct (set_first_ok l m b A (H m (or_introl eq_refl))) as [l1 [-> [L1 [A1 P1]]]]. cbn [bind].
    assert (C1 : changed l l1 [m] b).
    { split; [exact L1|]. intros i e E. destruct (P1 i e E) as [e' [Q1 [Q2 [Q3 [Q4 Q5]]]]]. exists e'. repeat split; auto.
      - intros [n [[<-|[]] F]]. auto.
      - intros N. apply Q5. intros F. apply N. exists m. split; [left; reflexivity|exact F]. }
    pose proof (changed_first _ _ _ _ C1) as F1.
    destruct (IH l1 A1) as [l2 [-> C2]]; [intros n I; destruct (H n (or_intror I)) as [i F]; exists i; apply F1; exact F|]. exists l2. split; [reflexivity|].
    destruct C2 as [L2 P2]. split; [congruence|]. intros i e E. destruct (P1 i e E) as [e1 [Q1 [Q2 [Q3 [Q4 Q5]]]]]. destruct (P2 i e1 Q1) as [e2 [R1 [R2 [R3 [R4 R5]]]]].
    exists e2. split; [exact R1|]. split; [congruence|]. split; [congruence|].
    destruct (some_first_dec l1 i names) as [S|S].
    + split; [intros _; exact (R4 S)|]. intros N. exfalso. apply N. destruct S as [n [I F]]. exists n. split; [right; exact I|apply F1; exact F].
    + specialize (R5 S). subst e2. split.
      * intros [n [[<-|I] F]]; [exact (Q4 F)|exfalso; apply S; exists n; split; [exact I|apply F1; exact F]].
      * intros N. apply Q5. intros F. apply N. exists m. split; [left; reflexivity|exact F].
Qed.
Lemma set_each_missing names b : forall l, all_named l -> (exists n, In n names /\ ~ exists i, first_named l i n) -> set_each l names b = Err StopIteration.
Proof.
  induction names as [|m names IH]; intros l A [n [I N]]; [destruct I|]. cbn [set_each].
  assert (D : (exists i, first_named l i m) \/ ~ exists i, first_named l i m).
  { clear - A. induction l as [|e l IH]; [right; intros [i [[e [X _]] _]]; destruct i; discriminate|]. inversion A; subst. destruct (first_dec (e :: l) 0 m) as [F|F]; [left; exists 0; exact F|].
    assert (D : l_name e <> Some m) by (intros X; apply F; split; [exists e; auto|intros; lia]).
    destruct IH as [[i [X Y]]|N]; [assumption| |].
    - left. exists (S i). split; [exact X|]. intros [|j] e' J H; [cbn in H; injection H as <-; exact D|]. apply (Y j e'); [lia|exact H].
    - right. intros [[|i] [X Y]]; [apply F; split; assumption|]. apply N. exists i. split; [exact X|]. intros j e' J H. apply (Y (S j) e'); [lia|exact H]. }
  destruct D as [D|D]; [|rewrite (set_first_missing l m b A D); reflexivity].
  destruct (set_first_ok l m b A D) as [l1 [-> [L1 [A1 P1]]]]. cbn [bind]. apply IH; [exact A1|]. destruct I as [->|I]; [contradiction|]. exists n. split; [exact I|]. intros [i F]. apply N. exists i.
  assert (C1 : changed l l1 [m] b).
  { split; [exact L1|]. intros j e E. destruct (P1 j e E) as [e' [Q1 [Q2 [Q3 [Q4 Q5]]]]]. exists e'. repeat split; auto.
    - intros [k [[<-|[]] G]]. auto.
    - intros X. apply Q5. intros G. apply X. exists m. split; [left; reflexivity|exact G]. }
  apply (changed_first _ _ _ _ C1). exact F.
Qed.
Lemma names_known mods names : forallb (fun n => existsb (pystr_eqb n) mods) names = true <-> forall n, In n names -> In n mods.
Proof. rewrite forallb_forall. split; intros H n I; [apply existsb_in, H, I|apply existsb_in, H, I]. Qed.
Lemma not_all names : names <> [str "all"] -> is_all names = false.
Proof. intros N. unfold is_all. destruct names as [|n [|m r]]; try reflexivity. apply pystr_eqb_neq. congruence. Qed.
Theorem enable_ok mods file names b : names <> [str "all"] -> all_named (the_list mods file) ->
  ((exists l', set_mods_enabled mods file names b = Ok l') <-> forall n, In n names -> In n mods /\ exists i, first_named (the_list mods file) i n) /\
  (forall l', set_mods_enabled mods file names b = Ok l' -> changed (the_list mods file) l' names b) /\
  (forall e, set_mods_enabled mods file names b = Err e ->
     e = MissingModError /\ (exists n, In n names /\ ~ In n mods) \/
     e = StopIteration /\ (forall n, In n names -> In n mods) /\ exists n, In n names /\ ~ exists i, first_named (the_list mods file) i n).
Proof.
  intros NA A. unfold set_mods_enabled. rewrite (not_all names NA). fold (the_list mods file).
  destruct (forallb (fun n => existsb (pystr_eqb n) mods) names) eqn:K.
  - pose proof (proj1 (names_known mods names) K) as K'.
    assert (D : (forall n, In n names -> exists i, first_named (the_list mods file) i n) \/ exists n, In n names /\ ~ exists i, first_named (the_list mods file) i n).
    { clear - A. induction names as [|m names IH]; [left; intros n []|].
      assert (D : (exists i, first_named (the_list mods file) i m) \/ ~ exists i, first_named (the_list mods file) i m).
      { destruct (set_first (the_list mods file) m true) eqn:E.
        - left. clear IH. revert A E. generalize (the_list mods file). intros l. revert a. induction l as [|e l IH]; intros a A E; [discriminate|]. inversion A; subst. cbn [set_first] in E. destruct (l_name e) as [k|] eqn:M; [|congruence]. destruct (pystr_eqb k m) eqn:Q.
          + exists 0. apply pystr_eqb_eq in Q. subst k. split; [exists e; auto|intros; lia].
          + destruct (set_first l m true) as [r|] eqn:R; [|discriminate]. destruct (IH r H2 eq_refl) as [i [X Y]]. exists (S i). split; [exact X|]. intros [|j] e' J H; [cbn in H; injection H as <-; rewrite M; intros Z; injection Z as ->; rewrite pystr_eqb_refl in Q; discriminate|]. apply (Y j e'); [lia|exact H].
        - right. intros H. destruct (set_first_ok _ m true A H) as [l' [X _]]. congruence. }
      destruct D as [D|D]; [|right; exists m; split; [left; reflexivity|exact D]]. destruct IH as [IH|[n [I N]]]; [left; intros n [<-|I]; [exact D|exact (IH n I)]|right; exists n; split; [right; exact I|exact N]]. }
    destruct D as [D|D].
    + destruct (set_each_ok names b _ A D) as [l' [-> C]]. split; [|split].
      * split; [intros _ n I; split; [exact (K' n I)|exact (D n I)]|intros _; exists l'; reflexivity].
      * intros l2 X; injection X as <-; exact C.
      * discriminate.
    + rewrite (set_each_missing names b _ A D). split; [|split].
      * split; [intros [l' X]; discriminate|]. intros H. destruct D as [n [I N]]. destruct (H n I) as [_ F]. contradiction.
      * discriminate.
      * intros e X; injection X as <-. right. auto.
  - assert (M : exists n, In n names /\ ~ In n mods).
    { clear - K. induction names as [|m names IH]; [discriminate|]. cbn [forallb] in K. destruct (existsb (pystr_eqb m) mods) eqn:E; [|exists m; split; [left; reflexivity|intros I; apply existsb_in in I; congruence]].
      destruct (IH K) as [n [I N]]. exists n. split; [right; exact I|exact N]. }
    split; [|split].
    + split; [intros [l' X]; discriminate|]. intros H. exfalso. destruct M as [n [I N]]. destruct (H n I). contradiction.
    + discriminate.
    + intros e X; injection X as <-. left. auto.
Qed.
(** What registering then reads. *)
Lemma enabled_first l n : all_named l -> (forall i e, first_named l i n -> nth_error l i = Some e -> enabled_of l n = match l_enabled e with Some b => Ok b | None => Err KeyError end) /\
  (~ (exists i, first_named l i n) -> enabled_of l n = Ok true).
Proof.
  intros A. induction A as [|e l E A [IH1 IH2]]; cbn [enabled_of].
  - split; [|reflexivity]. intros i e [[e' [X _]] _]. destruct i; discriminate.
  - destruct (l_name e) as [m|] eqn:M; [|congruence]. destruct (pystr_eqb m n) eqn:Q.
    + apply pystr_eqb_eq in Q. subst m. split; [|intros N; exfalso; apply N; exists 0; split; [exists e; auto|intros; lia]].
      intros [|i] e' [X Y] H; [cbn in H; injection H as <-; reflexivity|]. exfalso. apply (Y 0 e); [lia|reflexivity|exact M].
    + assert (NE : l_name e <> Some n) by (rewrite M; intros X; injection X as ->; rewrite pystr_eqb_refl in Q; discriminate). split.
      * intros [|i] e' [X Y] H; [destruct X as [e0 [X1 X2]]; cbn in X1; injection X1 as <-; contradiction|]. apply (IH1 i); [|exact H]. split; [exact X|]. intros j e0 J N. apply (Y (S j) e0); [lia|exact N].
      * intros N. apply IH2. intros [i [X Y]]. apply N. exists (S i). split; [exact X|]. intros [|j] e' J H; [cbn in H; injection H as <-; exact NE|]. apply (Y j e'); [lia|exact H].
Qed.
Theorem enable_read mods file names b l' : names <> [str "all"] -> all_named (the_list mods file) -> set_mods_enabled mods file names b = Ok l' ->
  forall n, enabled_of l' n = if existsb (pystr_eqb n) names then Ok b else enabled_of (the_list mods file) n.
Proof.
  intros NA A E n. destruct (enable_ok mods file names b NA A) as [H1 [H2 _]]. pose proof (H2 l' E) as C. pose proof (proj1 H1 (ex_intro _ l' E)) as K.
  pose proof (changed_named _ _ _ _ C A) as A'. pose proof (changed_first _ _ _ _ C) as F. destruct C as [L P]. set (l := the_list mods file) in *.
  assert (D : (exists i, first_named l i n) \/ ~ exists i, first_named l i n).
  { destruct (set_first l n true) as [r|] eqn:S.
    - left. destruct (enabled_first l n A) as [_ _]. clear - A S. revert r S. induction l as [|e l IH]; intros r S; [discriminate|]. inversion A; subst. cbn [set_first] in S. destruct (l_name e) as [k|] eqn:M; [|congruence]. destruct (pystr_eqb k n) eqn:Q.
      + exists 0. apply pystr_eqb_eq in Q. subst k. split; [exists e; auto|intros; lia].
      + destruct (set_first l n true) as [r'|] eqn:R; [|discriminate]. destruct (IH H2 r' eq_refl) as [i [X Y]]. exists (Datatypes.S i). split; [exact X|]. intros [|j] e' J H; [cbn in H; injection H as <-; rewrite M; intros Z; injection Z as ->; rewrite pystr_eqb_refl in Q; discriminate|]. apply (Y j e'); [lia|exact H].
    - right. intros H. destruct (set_first_ok _ n true A H) as [l'' [X _]]. congruence. }
  destruct (existsb (pystr_eqb n) names) eqn:X.
  - apply existsb_in in X. destruct (K n X) as [_ [i Fi]]. pose proof Fi as Fi'. destruct Fi' as [[e [N _]] _]. destruct (P i e N) as [e' [Q1 [_ [_ [Q4 _]]]]].
    rewrite (proj1 (enabled_first l' n A') i e' (proj2 (F i n) Fi) Q1). rewrite Q4 by (exists n; auto). reflexivity.
  - destruct D as [[i Fi]|D].
    + pose proof Fi as Fi'. destruct Fi' as [[e [N NM]] _]. destruct (P i e N) as [e' [Q1 [_ [_ [_ Q5]]]]]. rewrite (proj1 (enabled_first l' n A') i e' (proj2 (F i n) Fi) Q1). rewrite (proj1 (enabled_first l n A) i e Fi N).
      rewrite Q5; [reflexivity|]. intros [m [I Fm]]. destruct Fm as [[e0 [N0 M0]] _]. assert (m = n) by congruence. subst m. apply existsb_in in I. congruence.
    + rewrite (proj2 (enabled_first l n A) D). apply (enabled_first l' n A'). intros [i Fi]. apply D. exists i. apply F. exact Fi.
Qed.
Theorem default_named mods : all_named (default_list mods).
Proof. unfold all_named, default_list. apply Forall_forall. intros e I. apply in_map_iff in I. destruct I as [n [<- _]]. discriminate. Qed.
Theorem default_first mods n : In n mods -> exists i, first_named (default_list mods) i n.
Proof.
  induction mods as [|m mods IH]; [intros []|]. intros I. destruct (pystr_eq_dec m n) as [->|NE]; [exists 0; split; [eexists; split; reflexivity|intros; lia]|].
  destruct I as [->|I]; [congruence|]. destruct (IH I) as [i [X Y]]. exists (S i). split; [exact X|]. intros [|j] e' J H; [cbn in H; injection H as <-; cbn; congruence|]. apply (Y j e'); [lia|exact H].
Qed.
(** Without a file the change always works for mods that are there. *)
Theorem enable_default mods names b : names <> [str "all"] ->
  ((exists l', set_mods_enabled mods None names b = Ok l') <-> forall n, In n names -> In n mods) /\
  (forall l', set_mods_enabled mods None names b = Ok l' -> forall n, enabled_of l' n = Ok (if existsb (pystr_eqb n) names then b else true)).
Proof.
  intros NA. pose proof (default_named mods) as A. destruct (enable_ok mods None names b NA A) as [H1 _]. split.
  - rewrite H1. split; [intros H n I; apply (H n I)|]. intros H n I. split; [exact (H n I)|]. apply default_first, H, I.
  - intros l' E n. rewrite (enable_read mods None names b l' NA A E n). destruct (existsb _ names); [reflexivity|]. clear. unfold the_list. induction mods as [|m mods IH]; [reflexivity|]. cbn. destruct (pystr_eqb m n); [reflexivity|exact IH].
Qed.
(** "all" is for no mods at all. *)
Theorem enable_all mods file b : mods <> [] -> set_mods_enabled mods file [str "all"] b = Err AttributeError.
Proof. intros N. unfold set_mods_enabled. change (is_all [str "all"]) with true. cbn iota. destruct mods; [congruence|reflexivity]. Qed.

(** *** Registering. *)
Lemma check_fits n i : check_factorio n i = Ok tt <-> version_fits n i.
Proof.
  unfold check_factorio, version_fits. destruct (existsb (pystr_eqb n) [str "base"; str "core"]) eqn:X.
  - apply existsb_in in X. split; auto.
  - assert (N : ~ In n [str "base"; str "core"]) by (intros I; apply existsb_in in I; congruence). split.
    + intros E. right. destruct (i_factorio i) as [v|]; [|discriminate]. destruct (version_string_to_tuple v) as [t|] eqn:V; [|discriminate]. cbn [bind] in E. exists v, t. split; [reflexivity|]. split; [exact V|]. unfold version_info in E. destruct (tuple_cmp t [2; 0; 42; 0]%Z); try discriminate; intros Y; discriminate.
    + intros [I|[v [t [E [V C]]]]]; [contradiction|]. rewrite E, V. cbn [bind]. unfold version_info. destruct (tuple_cmp t [2; 0; 42; 0]%Z); [reflexivity|reflexivity|congruence].
Qed.
Lemma filter_same {A} (f g : A -> bool) l : (forall x, f x = g x) -> filter f l = filter g l.
Proof. intros E. induction l as [|a l IH]; [reflexivity|]. cbn [filter]. rewrite E, IH. reflexivity. Qed.
Section Register.
Variables uni_word uni_digit uni_space : N -> bool.
Local Notation make_mod := (make_mod uni_word uni_digit).
Local Notation register := (register_mod uni_word uni_digit uni_space).
Definition finish (dflt : list entry) (location : pystr) (ml : list listed) (n : pystr) (i : info) (present : pystr -> bool) (arch : bool) : list entry * result mod_ :=
  match check_factorio n i with
  | Err e => (dflt, Err e)
  | Ok _ => match enabled_of ml n with Err e => (dflt, Err e) | Ok b => make_mod dflt (forward location) (filter present all_stages) i b arch end
  end.
Lemma finish_ok dflt loc ml n i present arch d' m : finish dflt loc ml n i present arch = (d', Ok m) <->
  version_fits n i /\ exists b, enabled_of ml n = Ok b /\ make_mod dflt (forward loc) (filter present all_stages) i b arch = (d', Ok m).
Proof.
  unfold finish. rewrite <- check_fits. destruct (check_factorio n i) as [[]|]; [|split; [discriminate|intros [X _]; discriminate]]. destruct (enabled_of ml n) as [b|].
  - split; [intros E; split; [reflexivity|]; exists b; auto|]. intros [_ [b' [X E]]]. injection X as <-. exact E.
  - split; [discriminate|intros [_ [b [X _]]]; discriminate].
Qed.
Theorem register_folder fuel order dflt name loc f ml d' m :
  (forall c, uni_digit c = true -> uni_space c = false) ->
  (register fuel order dflt name loc (Folder f) ml = (d', Ok m) <->
   ends_zip name = false /\ exists n i b st, folder_mod uni_digit uni_space f ml name n i b /\
     stages_are (fun s => f_file f (loc ++ str "/" ++ s) = true) st /\ make_mod dflt (forward loc) st i b false = (d', Ok m)).
Proof.
  intros DS. unfold register_mod. destruct (ends_zip name); [split; [discriminate|intros [X _]; discriminate]|].
  pose proof (folder_spec uni_digit uni_space DS name) as FS. destruct (re_match (folder_regex uni_digit uni_space) name) as [g|].
  2: { split; [discriminate|]. intros [_ [n [i [b [st [[[v F] _] _]]]]]]. destruct (FS n v F). }
  destruct FS as [n [G F]]. rewrite G. destruct (f_info f) as [i|] eqn:FI.
  2: { split; [discriminate|]. intros [_ [n' [i [b [st [[_ [X _]] _]]]]]]. congruence. }
  cbn beta iota. change (match check_factorio n i with Ok _ => _ | Err e => (dflt, Err e) end) with (finish dflt loc ml n i (fun s => f_file f (path loc s)) false).
  rewrite finish_ok. split.
  - intros [V [b [E M]]]. split; [reflexivity|]. exists n, i, b, (filter (fun s => f_file f (path loc s)) all_stages). split; [split; [exists (group g 2); exact F|auto]|]. split; [|exact M].
    exists (fun s => f_file f (path loc s)). split; [intros s; reflexivity|reflexivity].
  - intros [_ [n' [i' [b [st [[[v F'] [X [V E]]] [[p [P ->]] M]]]]]]]. rewrite FI in X. injection X as <-. destruct (folder_unique uni_digit uni_space name n (group g 2) n' v F F') as [<- _]. split; [exact V|]. exists b. split; [exact E|].
    rewrite (filter_same (fun s => f_file f (path loc s)) p); [exact M|]. intros s. specialize (P s). cbn beta in P. change (loc ++ str "/" ++ s) with (path loc s) in P. destruct (f_file f (path loc s)), (p s); try reflexivity; [symmetry; apply P; reflexivity|apply P; reflexivity].
Qed.
Lemma first_parts_perm files l l' : first_parts files l -> first_parts files l' -> Permutation l l'.
Proof. intros [N M] [N' M']. apply NoDup_Permutation; [exact N|exact N'|]. intros d. rewrite M, M'. reflexivity. Qed.
Lemma meant_unique fn dirs d d' : NoDup dirs -> meant fn dirs d -> meant fn dirs d' -> d = d'.
Proof. intros N A B. apply folder_meant in A; [|exact N]. apply folder_meant in B; [|exact N]. congruence. Qed.
Theorem register_archive fuel order dflt name loc a ml d' m :
  (forall c, uni_digit c = true -> uni_word c = true) -> (forall l, Permutation l (order l)) ->
  Forall (fun f => clean f /\ (List.length f <= fuel)%nat) (a_names a) ->
  (register fuel order dflt name loc (Archive a) ml = (d', Ok m) <->
   ends_zip name = true /\ exists n dir i b st, archive_mod uni_digit a ml name n dir i b /\
     stages_are (fun s => In (dir ++ str "/" ++ s) (a_names a)) st /\ make_mod dflt (forward loc) st i b true = (d', Ok m)).
Proof.
  intros DW OP CL. unfold register_mod. destruct (ends_zip name); [|split; [discriminate|intros [X _]; discriminate]].
  pose proof (archive_spec uni_word uni_digit DW name) as AS. destruct (re_match (archive_regex uni_word uni_digit) name) as [g|].
  2: { split; [discriminate|]. intros [_ [n [dir [i [b [st [[[v [r [dirs [[F _] _]]]] _] _]]]]]]]. destruct (AS n v r F). }
  destruct AS as [n [v [r [F [G1 [G2 [_ L]]]]]]]. rewrite G1, G2.
  destruct (topdirs_spec fuel (a_names a) CL) as [dirs [T FP]]. rewrite T. cbn [bind].
  assert (O : exists dirs', order (map Some dirs) = map Some dirs' /\ Permutation dirs dirs').
  { destruct (Permutation_map_inv _ _ (Permutation_sym (OP (map Some dirs)))) as [dirs' [E P]]. exists dirs'. split; [exact E|exact P]. }
  destruct O as [dirs' [-> P]]. rewrite <- (folder_order (n ++ str "_" ++ v) dirs dirs' (proj1 FP) P).
  assert (U : forall n' v' r', longest_form uni_digit name n' v' r' -> n' = n /\ v' = v).
  { intros n' v' r' [F' L']. assert (LE : List.length n = List.length n') by (apply Nat.le_antisymm; [exact (L' _ _ _ F)|exact (L _ _ _ F')]). destruct (archive_unique uni_digit name n v r n' v' r' F F' LE) as [-> [-> _]]. auto. }
  destruct (mod_folder (n ++ str "_" ++ v) (map Some dirs)) as [dir|e] eqn:MF; cbn [bind].
  2: { split; [discriminate|]. intros [_ [n' [dir [i [b [st [[[v' [r' [ds [LF [FP' ME]]]]] _] _]]]]]]]. destruct (U _ _ _ LF) as [-> ->]. apply (meant_perm _ _ _ _ (first_parts_perm _ _ _ FP' FP)) in ME. apply folder_meant in ME; [|apply FP]. congruence. }
  apply folder_meant in MF; [|apply FP].
  assert (UD : forall n' v' r' ds dir', longest_form uni_digit name n' v' r' -> first_parts (a_names a) ds -> meant (n' ++ str "_" ++ v') ds dir' -> n' = n /\ dir' = dir).
  { intros n' v' r' ds dir' LF FP' ME. destruct (U _ _ _ LF) as [-> ->]. split; [reflexivity|]. apply (meant_perm _ _ _ _ (first_parts_perm _ _ _ FP' FP)) in ME. exact (meant_unique _ _ _ _ (proj1 FP) ME MF). }
  change (path dir (str "info.json")) with (dir ++ str "/info.json").
  destruct (a_info a (dir ++ str "/info.json")) as [i|] eqn:AI.
  2: { split; [discriminate|]. intros [_ [n' [dir' [i [b [st [[[v' [r' [ds [LF [FP' ME]]]]] [X _]] _]]]]]]]. destruct (UD _ _ _ _ _ LF FP' ME) as [-> ->]. congruence. }
  destruct (i_version i) as [ver|] eqn:IV.
  2: { split; [discriminate|]. intros [_ [n' [dir' [i' [b [st [[[v' [r' [ds [LF [FP' ME]]]]] [X [Y _]]] _]]]]]]]. destruct (UD _ _ _ _ _ LF FP' ME) as [-> ->]. congruence. }
  cbn beta iota. match goal with |- ?t = _ <-> _ => change t with (finish dflt loc ml (no_spaces n) i (fun s => existsb (pystr_eqb (path dir s)) (a_names a)) true) end.
  rewrite finish_ok. split.
  - intros [V [b [E M]]]. split; [reflexivity|]. exists n, dir, i, b, (filter (fun s => existsb (pystr_eqb (path dir s)) (a_names a)) all_stages).
    split; [split; [exists v, r, dirs; split; [split; [exact F|exact L]|auto]|split; [exact AI|]; split; [rewrite IV; discriminate|]; auto]|]. split; [|exact M].
    exists (fun s => existsb (pystr_eqb (path dir s)) (a_names a)). split; [intros s; apply existsb_in|reflexivity].
  - intros [_ [n' [dir' [i' [b [st [[[v' [r' [ds [LF [FP' ME]]]]] [X [_ [V E]]]] [[p [Q ->]] M]]]]]]]]. destruct (UD _ _ _ _ _ LF FP' ME) as [-> ->]. rewrite AI in X. injection X as <-. split; [exact V|]. exists b. split; [exact E|].
    rewrite (filter_same (fun s => existsb (pystr_eqb (path dir s)) (a_names a)) p); [exact M|]. intros s. specialize (Q s). cbn beta in Q. change (dir ++ str "/" ++ s) with (path dir s) in Q. rewrite <- existsb_in in Q.
    destruct (existsb (pystr_eqb (path dir s)) (a_names a)), (p s); try reflexivity; [symmetry; apply Q; reflexivity|apply Q; reflexivity].
Qed.
(** Names that do not fit are refused, and nothing changes. *)
Theorem register_refused fuel order dflt name loc here ml :
  (forall c, uni_digit c = true -> uni_word c = true) -> (forall c, uni_digit c = true -> uni_space c = false) ->
  (ends_zip name = true /\ (forall n v r, ~ archive_form uni_digit name n v r) \/
   ends_zip name = false /\ ((forall n v, ~ folder_form uni_digit uni_space name n v) \/ here = Plain)) ->
  register fuel order dflt name loc here ml = (dflt, Err DraftsmanError).
Proof.
  intros DW DS H. unfold register_mod. destruct H as [[-> H]|[-> H]].
  - pose proof (archive_spec uni_word uni_digit DW name) as AS. destruct (re_match (archive_regex uni_word uni_digit) name) as [g|]; [destruct AS as [n [v [r [F _]]]]; destruct (H n v r F)|]. destruct here; reflexivity.
  - destruct H as [H| ->]; [|reflexivity]. pose proof (folder_spec uni_digit uni_space DS name) as FS. destruct (re_match (folder_regex uni_digit uni_space) name) as [g|]; [destruct FS as [n [_ F]]; destruct (H n _ F)|]. destruct here; reflexivity.
Qed.
End Register.

(** *** What goes wrong. *)
Definition nothing (c : N) : bool := false.
Definition plain_info (n : string) : info :=
  mkInfo [str "name"; str "title"; str "author"; str "version"; str "factorio_version"; str "dependencies"] (str n) (Some (str "1.0.0")) (Some (str "2.0")) (Some [str "base >= 2.0"]).
Definition one_archive (n : string) (d : string) : archive :=
  mkArchive [str (d ++ "/info.json"); str (d ++ "/data.lua")] (fun p => if pystr_eqb p (str (d ++ "/info.json")) then Some (plain_info n) else None).
Definition off (n : string) : listed := mkListed (Some (str n)) (Some false) [].
Theorem spaces_enabled : exists d m, 
  register_mod nothing nothing nothing 100 (fun l => l) first_default (str "Mining Drones_1.0.0.zip") (str "mods/Mining Drones_1.0.0.zip") (Archive (one_archive "Mining Drones" "Mining Drones_1.0.0")) [off "Mining Drones"] = (d, Ok m) /\
  m_name m = str "Mining Drones" /\ enabled_of [off "Mining Drones"] (m_name m) = Ok false /\ m_enabled m = true.
Proof. eexists. eexists. split; [vm_compute; reflexivity|]. vm_compute. repeat split. Qed.
Theorem upper_refused : ends_zip (str "Drones_1.0.0.ZIP") = true /\
  forall fuel order dflt loc ml, register_mod nothing nothing nothing fuel order dflt (str "Drones_1.0.0.ZIP") loc (Archive (one_archive "Drones" "Drones_1.0.0")) ml = (dflt, Err DraftsmanError).
Proof. split; [reflexivity|]. intros. reflexivity. Qed.
Theorem number_in_name : exists g, re_match (folder_regex nothing nothing) (str "Drones_2") = Some g /\ group g 1 = Some (str "Drones_2") /\ group g 2 = None.
Proof. eexists. split; [vm_compute; reflexivity|]. split; reflexivity. Qed.

(** *** Names that are the same but for case and punctuation. *)
Lemma alnum_spec c : alnum c = true <-> ((48 <= c <= 57) \/ (65 <= c <= 90) \/ (97 <= c <= 122))%N.
Proof.
  unfold alnum, is_digit, is_upper, is_lower. rewrite !orb_true_iff, !andb_true_iff, !N.leb_le. lia.
Qed.
Lemma lower_spec c : lower c = if ((65 <=? c) && (c <=? 90))%N then (c + 32)%N else c.
Proof. reflexivity. Qed.
Lemma lower_cases c : ((65 <= c <= 90)%N /\ lower c = (c + 32)%N) \/ (~ (65 <= c <= 90)%N /\ lower c = c).
Proof.
  rewrite lower_spec. destruct ((65 <=? c) && (c <=? 90))%N eqn:E.
  - left. apply andb_true_iff in E as [A B]. apply N.leb_le in A, B. split; [lia|reflexivity].
  - right. split; [|reflexivity]. intros [A B]. apply N.leb_le in A, B. rewrite A, B in E. discriminate.
Qed.
Lemma same_letter_spec c d : same_letter c d <-> alnum c = true /\ alnum d = true /\ lower c = lower d.
Proof.
  rewrite !alnum_spec. split.
  - intros S'. destruct (lower_cases c) as [[A1 A2]|[A1 A2]], (lower_cases d) as [[B1 B2]|[B1 B2]]; rewrite A2, B2; inversion S'; subst; lia.
  - intros [A [B E]]. destruct (lower_cases c) as [[A1 A2]|[A1 A2]], (lower_cases d) as [[B1 B2]|[B1 B2]]; rewrite A2, B2 in E.
    + assert (c = d) by lia. subst d. apply sl_upper. exact A1.
    + subst d. apply sl_down. exact A1.
    + subst c. apply sl_up. exact B1.
    + subst d. destruct A as [A|[A|A]]; [apply sl_digit; exact A|contradiction|apply sl_lower; exact A].
Qed.
Lemma not_letter c : alnum c = false <-> forall d, ~ same_letter c d.
Proof.
  split.
  - intros E d H. apply same_letter_spec in H as [A _]. congruence.
  - intros H. destruct (alnum c) eqn:E; [|reflexivity]. exfalso. apply (H c). apply same_letter_spec. auto.
Qed.
Lemma simplified_cons c s : simplified (c :: s) = if alnum c then lower c :: simplified s else simplified s.
Proof. unfold simplified. cbn [filter]. destruct (alnum c); reflexivity. Qed.
Theorem simplified_alike a b : simplified a = simplified b <-> alike a b.
Proof.
  split.
  - remember (List.length a + List.length b)%nat as n eqn:Hn. assert (L : (List.length a + List.length b <= n)%nat) by lia. clear Hn.
    revert a b L. induction n as [|n IH]; intros [|c a] [|d b] L E; try (cbn in L; lia); try exact alike_nil.
    + rewrite (simplified_cons d) in E. destruct (alnum d) eqn:D; [discriminate|]. apply alike_right; [apply not_letter; exact D|]. apply IH; [cbn in L |- *; lia|exact E].
    + rewrite (simplified_cons c) in E. destruct (alnum c) eqn:D; [discriminate|]. apply alike_left; [apply not_letter; exact D|]. apply IH; [cbn in L |- *; lia|exact E].
    + destruct (alnum c) eqn:C.
      * destruct (alnum d) eqn:D.
        { rewrite !simplified_cons, C, D in E. injection E as E1 E2.
          apply alike_both; [apply same_letter_spec; auto|]. apply IH; [cbn in L; lia|exact E2]. }
        { apply alike_right; [apply not_letter; exact D|]. apply IH; [cbn in L |- *; lia|]. rewrite (simplified_cons d), D in E. exact E. }
      * apply alike_left; [apply not_letter; exact C|]. apply IH; [cbn in L |- *; lia|]. rewrite (simplified_cons c), C in E. exact E.
  - intros H. induction H as [|c a b N _ IH|c a b N _ IH|c d a b S' _ IH]; [reflexivity| | |]; rewrite ?simplified_cons.
    + apply not_letter in N. rewrite N. exact IH.
    + apply not_letter in N. rewrite N. exact IH.
    + apply same_letter_spec in S' as [A [B E]]. rewrite A, B, E, IH. reflexivity.
Qed.
Theorem forward_spec s : List.length (forward s) = List.length s /\
  forall i c, nth_error s i = Some c -> (c = 92%N -> nth_error (forward s) i = Some 47%N) /\ (c <> 92%N -> nth_error (forward s) i = Some c).
Proof.
  unfold forward. split; [apply map_length|]. intros i c E. apply map_nth_error with (f := fun c => if N.eqb c 92 then SLASH else c) in E. rewrite E.
  split; intros H; [subst; reflexivity|]. apply N.eqb_neq in H. rewrite H. reflexivity.
Qed.
Lemma zip_is (a b c d : N) l :
  match a :: b :: c :: d :: l with 112 :: 105 :: 122 :: 46 :: _ => true | _ => false end%N = true ->
  a = 112%N /\ b = 105%N /\ c = 122%N /\ d = 46%N.
Proof.
  intros E. cbv iota in E. repeat (match type of E with match ?x with _ => _ end = _ => destruct x end; cbv iota in E; try discriminate). auto.
Qed.
Theorem ends_zip_spec s : ends_zip s = true <-> exists p z i q, s = p ++ [46%N; z; i; q] /\
  In z [122%N; 90%N] /\ In i [105%N; 73%N] /\ In q [112%N; 80%N].
Proof.
  assert (L : forall c x, (97 <= x <= 122)%N -> lower c = x <-> In c [x; (x - 32)%N]).
  { intros c x X. destruct (lower_cases c) as [[A ->]|[A ->]]; cbn [In]; split; [lia|intros [?|[?|[]]]; lia|lia|intros [?|[?|[]]]; lia]. }
  assert (D : forall c, lower c = 46%N <-> c = 46%N).
  { intros c. destruct (lower_cases c) as [[A ->]|[A ->]]; lia. }
  unfold ends_zip. rewrite <- map_rev. split.
  - intros H. assert (K : exists q i z o p, rev s = q :: i :: z :: o :: p).
    { destruct (rev s) as [|q [|i [|z [|o p]]]]; cbn [map] in H; [exfalso|exfalso|exfalso|exfalso|exists q, i, z, o, p; reflexivity];
        repeat (match type of H with match ?x with _ => _ end = _ => destruct x end; cbv iota in H; try discriminate); discriminate. }
    destruct K as (q & i & z & o & p & R). rewrite R in H. cbn [map] in H.
    assert (E : lower q = 112%N /\ lower i = 105%N /\ lower z = 122%N /\ lower o = 46%N).
    { exact (zip_is _ _ _ _ [] H). }
    destruct E as [E1 [E2 [E3 E4]]]. apply (proj1 (D o)) in E4. subst o.
    exists (rev p), z, i, q. split.
    + rewrite <- (rev_involutive s), R. cbn [rev]. rewrite <- !app_assoc. reflexivity.
    + split; [apply (L z 122%N); [lia|exact E3]|]. split; [apply (L i 105%N); [lia|exact E2]|apply (L q 112%N); [lia|exact E1]].
  - intros (p & z & i & q & -> & Z & I' & Q). rewrite rev_app_distr. cbn [rev app map].
    apply (L z 122%N) in Z; [|lia]. apply (L i 105%N) in I'; [|lia]. apply (L q 112%N) in Q; [|lia]. rewrite Z, I', Q. reflexivity.
Qed.
