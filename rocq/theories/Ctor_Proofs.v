(** Proofs about constructors: keyword arguments followed symbolically, and what the
    statements write. *)
From Coq Require Import ZArith String List Bool.
From Verif Require Import Common Dict Version_Model Assign_Model Attr_Model Attr_Spec Attr_Order_Proofs Attr_Proofs Attr_Facts_Proofs Ctor_Model.
Import ListNotations.
Local Open Scope string_scope.
Local Open Scope list_scope.

(** ** Symbolic values *)
Inductive sv :=
| VUser (k : string) (alt : sv)    (* what the user gives as k, else *)
| VDefault (d : cls) (p : string)
| VConst (d : dflt)
| VOf (a : string)
| VElse (a b : sv)                 (* if a is None, b *)
| VInput (a b : sv).               (* if a is "input", b *)
(** Keywords on their way: as the user gave them (or not), given for sure, not there. *)
Inductive pres := PUser | PSure (v : sv) | PNo.
Definition skw := list (string * pres).
Definition slook (s : skw) (k : string) : pres := match dget eqs s k with Some p => p | None => PUser end.
Definition sof (d : dflt) : sv := match d with DOf a => VOf a | _ => VConst d end.
Fixpoint closed (v : sv) : bool :=
  match v with
  | VUser _ a => closed a
  | VDefault _ _ | VConst _ => true
  | VOf _ => false
  | VElse a b | VInput a b => closed a && closed b
  end.
Definition seval (env : list (string * sv)) (s : skw) (e : expr) : option sv :=
  match e with
  | Param p => dget eqs env p
  | Else p d => option_map (fun a => VElse a (sof d)) (dget eqs env p)
  | Kw k d => Some (match slook s k with PUser => VUser k (sof d) | PSure v => v | PNo => sof d end)
  | KwOf k j =>
    match slook s k, slook s j with
    | PSure v, _ => Some v
    | PNo, PSure v => Some v
    | PUser, PSure v => Some (VUser k v)
    | _, _ => None
    end
  | Const d => Some (sof d)
  | InputOr p k =>
    option_map (fun a => VInput a (match slook s k with PUser => VUser k a | PSure v => v | PNo => a end)) (dget eqs env p)
  end.
Definition omap2 {A B C} (f : A -> B -> C) (x : option A) (y : option B) : option C :=
  match x, y with Some a, Some b => Some (f a b) | _, _ => None end.
(** Environment and the keywords that are required of the user. *)
Fixpoint sbind (d : cls) (ps : list (string * bool)) (s : skw) : option (list (string * sv) * list string) :=
  match ps with
  | [] => Some ([], [])
  | (p, opt) :: r =>
    omap2 (fun x y => ((p, fst x) :: fst y, snd x ++ snd y))
      (match slook s p, opt with
       | PUser, true => Some (VUser p (VDefault d p), [])
       | PUser, false => Some (VUser p (VConst DNone), [p])
       | PSure v, _ => Some (v, [])
       | PNo, true => Some (VDefault d p, [])
       | PNo, false => None
       end) (sbind d r s)
  end.
Definition swithout (ks : list string) (s : skw) : skw := map (fun k => (k, PNo)) ks ++ s.
(** Keywords of the call and those the user must not give. *)
Fixpoint sargs (env : list (string * sv)) (s : skw) (call : list (string * expr)) : option (skw * list string) :=
  match call with
  | [] => Some (s, [])
  | (k, e) :: r =>
    omap2 (fun x y => ((k, PSure (fst x)) :: fst y, snd x ++ snd y))
      (match seval env s e, slook s k with
       | Some v, PUser => if closed v then Some (v, [k]) else None
       | Some v, PNo => if closed v then Some (v, []) else None
       | _, _ => None
       end) (sargs env s r)
  end.

(** ** What happens after the call of the next initialiser *)
Inductive act :=
| AAttr (a : string) (v : sv)
| ACustom (a : string) (v : sv)
| AKeep (a : string) (v : sv)
| AField (f : string) (v : sv)
| APlace (p t : sv)
| AMode (v : sv).
Definition act_of (env : list (string * sv)) (s : skw) (x : stmt) : option act :=
  match x with
  | Attribute a e => option_map (AAttr a) (seval env s e)
  | Custom a e => option_map (ACustom a) (seval env s e)
  | Keep a e => option_map (AKeep a) (seval env s e)
  | Field f e => option_map (AField f) (seval env s e)
  | Place => option_map (APlace (match slook s "position" with PUser => VUser "position" (VConst DNone) | PSure v => v | PNo => VConst DNone end))
                        (dget eqs env "tile_position")
  | Mode e => option_map AMode (seval env s e)
  end.
Fixpoint acts_of (env : list (string * sv)) (s : skw) (l : list stmt) : option (list act) :=
  match l with [] => Some [] | x :: r => omap2 cons (act_of env s x) (acts_of env s r) end.

(** The keywords that reach [Entity.__init__], those the user must and must not give,
    and what is done after it. *)
Record flat := { f_base : skw; f_need : list string; f_bad : list string; f_acts : list act }.
Section Flatten.
Variable T : data.
Fixpoint flatten (ch : list cls) (s : skw) : option flat :=
  match ch with
  | [] => None
  | d :: r =>
    if eqs d "Entity" then Some {| f_base := s; f_need := []; f_bad := []; f_acts := [] |}
    else match dget eqs (d_inits T) d with
         | None => flatten r s
         | Some i =>
           match sbind d (i_params i) s with
           | None => None
           | Some (env, need) =>
             let s' := swithout (map fst (i_params i)) s in
             match sargs env s' (i_call i), acts_of env s' (i_post i) with
             | Some (s'', bad), Some l =>
               option_map (fun F => {| f_base := f_base F; f_need := need ++ f_need F; f_bad := bad ++ f_bad F; f_acts := f_acts F ++ l |}) (flatten r s'')
             | _, _ => None
             end
           end
         end
  end.
End Flatten.

Section Sound.
Variables (T : data) (W : world) (L : lib) (c : cls) (kw0 : dict) (nm : tree).

Definition const_of (d : dflt) : tree := match d with DNone => TNone | _ => constant W d end.
Fixpoint sval (v : sv) : tree :=
  match v with
  | VUser k a => match dget eqs kw0 k with Some u => u | None => sval a end
  | VDefault d p => default W d p
  | VConst d => const_of d
  | VOf a => computed W a nm
  | VElse a b => if is_none (sval a) then sval b else sval a
  | VInput a b => if is_input W (sval a) then sval b else sval a
  end.
Definition pv (k : string) (p : pres) : option tree :=
  match p with PUser => dget eqs kw0 k | PSure v => Some (sval v) | PNo => None end.
Definition agree (s : skw) (kw : dict) : Prop := forall k, dget eqs kw k = pv k (slook s k).
Definition env_agree (se : list (string * sv)) (env : dict) : Prop := env = map (fun kv => (fst kv, sval (snd kv))) se.

Lemma env_get se env p : env_agree se env -> dget eqs env p = option_map sval (dget eqs se p).
Proof.
  intros ->. induction se as [|(k & v) se IH]; [reflexivity|]. cbn [map dget fst snd]. destruct (eqs k p); [reflexivity|exact IH].
Qed.

Definition named (root : tree) : Prop := child root (SAttr "name") = Ok nm.
Lemma seval_ok se env s kw root e v : env_agree se env -> agree s kw -> seval se s e = Some v -> named root \/ closed v = true ->
  eval W env kw root e = Ok (sval v).
Proof.
  intros E A H R.
  assert (OF : forall d, closed (sof d) = true \/ named root -> match d with
      | DNone => Ok TNone
      | DOf a => let* n := child root (SAttr "name") in Ok (computed W a n)
      | _ => Ok (constant W d) end = Ok (sval (sof d))).
  { intros d Hd. destruct d; cbn [sof sval const_of closed] in *; try reflexivity. destruct Hd as [Hd|Hd]; [discriminate|].
    unfold named in Hd. rewrite Hd. reflexivity. }
  assert (R2 : forall x, (closed v = true -> closed x = true) -> closed x = true \/ named root) by (intros x Hx; destruct R; auto).
  destruct e as [p|p d|k d|k j|d|p k]; cbn [seval eval] in *.
  - rewrite (env_get se _ _ E), H. reflexivity.
  - rewrite (env_get se _ _ E). destruct (dget eqs se p) as [a|]; [|discriminate]. cbn [option_map] in *. injection H as <-.
    cbn [sval]. destruct (is_none (sval a)); [|reflexivity]. apply OF. apply R2. cbn [closed]. intros X. apply andb_prop in X. apply X.
  - injection H as <-. rewrite (A k). destruct (slook s k) as [|u|]; cbn [pv sval].
    + destruct (dget eqs kw0 k); [reflexivity|]. apply OF. apply R2. auto.
    + reflexivity.
    + apply OF. apply R2. auto.
  - rewrite (A k), (A j). destruct (slook s k) as [|u|], (slook s j) as [|u'|]; try discriminate; injection H as <-; cbn [pv sval]; try reflexivity.
    destruct (dget eqs kw0 k); reflexivity.
  - injection H as <-. apply OF. apply R2. auto.
  - rewrite (env_get se _ _ E). destruct (dget eqs se p) as [a|]; [|discriminate]. cbn [option_map] in *. injection H as <-.
    rewrite (A k). cbn [sval]. destruct (slook s k) as [|u|]; cbn [pv sval].
    + destruct (dget eqs kw0 k); destruct (is_input W (sval a)); reflexivity.
    + destruct (is_input W (sval a)); reflexivity.
    + destruct (is_input W (sval a)); reflexivity.
Qed.

Definition given (k : string) : bool := match dget eqs kw0 k with Some _ => true | None => false end.
Lemma sbind_ok d ps s kw se need : agree s kw -> sbind d ps s = Some (se, need) ->
  if forallb given need then exists env, bind_params W d ps kw = Ok env /\ env_agree se env
  else bind_params W d ps kw = Err TypeError.
Proof.
  intros A. revert se need. induction ps as [|(p & opt) ps IH]; intros se need H; cbn [sbind bind_params] in *.
  - injection H as <- <-. exists []. split; reflexivity.
  - destruct (sbind d ps s) as [(se' & need')|]; [|unfold omap2 in H; destruct (match slook s p with PUser => _ | _ => _ end); discriminate].
    specialize (IH se' need' eq_refl). rewrite (A p).
    destruct (slook s p) as [|v|]; [destruct opt| |destruct opt]; cbn [omap2 fst snd app pv] in *; try discriminate; injection H as <- <-.
    + cbn [app]. destruct (forallb given need').
      * destruct IH as (env & B & E). rewrite B. exists ((p, sval (VUser p (VDefault d p))) :: env).
        split; [cbn [sval]; destruct (dget eqs kw0 p); reflexivity|]. unfold env_agree in *. cbn [map fst snd]. rewrite <- E. reflexivity.
      * rewrite IH. destruct (dget eqs kw0 p); reflexivity.
    + cbn [app forallb]. unfold given at 1. destruct (dget eqs kw0 p) as [u|] eqn:G; cbn [andb bind]; [|reflexivity].
      destruct (forallb given need').
      * destruct IH as (env & B & E). rewrite B. eexists. split; [reflexivity|]. unfold env_agree in *. cbn [map fst snd sval]. rewrite G, <- E. reflexivity.
      * rewrite IH. reflexivity.
    + cbn [bind]. destruct (forallb given need').
      * destruct IH as (env & B & E). rewrite B. eexists. split; [reflexivity|]. unfold env_agree in *. cbn [map fst snd sval]. rewrite <- E. reflexivity.
      * rewrite IH. reflexivity.
    + cbn [bind]. destruct (forallb given need').
      * destruct IH as (env & B & E). rewrite B. eexists. split; [reflexivity|]. unfold env_agree in *. cbn [map fst snd sval]. rewrite <- E. reflexivity.
      * rewrite IH. reflexivity.
Qed.

Lemma dget_filter (f : string -> bool) (d : dict) k : dget eqs (filter (fun kv => f (fst kv)) d) k = if f k then dget eqs d k else None.
Proof.
  induction d as [|(x & v) d IH]; cbn [filter dget fst]; [destruct (f k); reflexivity|].
  destruct (f x) eqn:F; cbn [dget fst snd]; destruct (eqs x k) eqn:E.
  - apply eqs_eq in E. subst. rewrite F. reflexivity.
  - exact IH.
  - apply eqs_eq in E. subst. rewrite F in IH. rewrite F. exact IH.
  - exact IH.
Qed.
Lemma slook_without ks s k : slook (swithout ks s) k = if mem k ks then PNo else slook s k.
Proof.
  unfold slook, swithout. induction ks as [|x ks IH]; [reflexivity|]. cbn [map app dget mem existsb].
  replace (eqs k x) with (eqs x k) by (unfold eqs; apply String.eqb_sym). destruct (eqs x k); [reflexivity|]. exact IH.
Qed.
Lemma without_ok ks s kw : agree s kw -> agree (swithout ks s) (without ks kw).
Proof.
  intros A k. unfold without. rewrite (dget_filter (fun k => negb (mem k ks))), slook_without, (A k). destruct (mem k ks); reflexivity.
Qed.

Lemma sargs_ok se env s kw call s' bad : env_agree se env -> agree s kw -> sargs se s call = Some (s', bad) ->
  if existsb given bad then args W env kw call = Err TypeError else exists kw', args W env kw call = Ok kw' /\ agree s' kw'.
Proof.
  intros E A. revert s' bad. induction call as [|(k & e) call IH]; intros s' bad H; cbn [sargs args] in *.
  - injection H as <- <-. exists kw. auto.
  - destruct (sargs se s call) as [(s1 & bad1)|]; [|unfold omap2 in H; destruct (match seval se s e with Some _ => _ | None => _ end); discriminate].
    specialize (IH s1 bad1 eq_refl). destruct (seval se s e) as [v|] eqn:V; [|discriminate].
    assert (HK : has kw k = match slook s k with PUser => given k | PSure _ => true | PNo => false end).
    { unfold has. rewrite (A k). destruct (slook s k); cbn [pv]; [unfold given| |]; reflexivity. }
    assert (AG : forall kw', agree s1 kw' -> agree ((k, PSure v) :: s1) ((k, sval v) :: kw')).
    { intros kw' A' x. unfold slook. cbn [dget]. destruct (eqs k x); [reflexivity|]. exact (A' x). }
    destruct (slook s k) as [|u|]; try discriminate; destruct (closed v) eqn:C; try discriminate; cbn [omap2 fst snd] in H; injection H as <- <-;
      rewrite (seval_ok se env s kw TNone e v E A V (or_intror C)), HK; cbn [bind app existsb].
    + destruct (existsb given bad1).
      * rewrite orb_true_r, IH. reflexivity.
      * destruct IH as (kw' & -> & A'). cbn [bind]. destruct (given k); cbn [orb]; [reflexivity|]. exists ((k, sval v) :: kw'). auto.
    + destruct (existsb given bad1); [rewrite IH; reflexivity|]. destruct IH as (kw' & -> & A'). exists ((k, sval v) :: kw'). cbn [bind]. auto.
Qed.

(** ** Acts *)
Definition place_of (p t : tree) : bool * tree := if is_none p then (false, t) else (true, p).
Definition do_act (o : obj) (x : act) : result obj :=
  match x with
  | AAttr a v => match assign L (verify W) c (o_mode o) (o_root o) a (sval v) with (t, None) => Ok (set_root o t) | (_, Some x) => Err x end
  | ACustom a v => let* w := adapt W a (sval v) in let* t := store (SAttr a) w (o_root o) in Ok (set_root o t)
  | AKeep a v => Ok (set_own o a (sval v))
  | AField f v => let* t := store (SAttr f) (sval v) (o_root o) in Ok (set_root o t)
  | APlace p t => Ok (set_place o (place_of (sval p) (sval t)))
  | AMode v => let* m := to_mode W (sval v) in Ok (set_mode o m)
  end.
Fixpoint do_acts (o : obj) (l : list act) : result obj :=
  match l with [] => Ok o | x :: r => let* o' := do_act o x in do_acts o' r end.
Lemma do_acts_app l l' o : do_acts o (l ++ l') = (let* o' := do_acts o l in do_acts o' l').
Proof.
  revert o. induction l as [|x l IH]; intros o; [reflexivity|]. cbn [app do_acts]. destruct (do_act o x); [apply IH|reflexivity].
Qed.

(** *** What acts write *)
(** The field of the root that [self.a = v] writes, and whether it stores the value
    it is given when nothing is checked. *)
Definition top (a : string) : option string :=
  match find_prop L c a with
  | Some q => match setter_cell L c (p_set q) with Some ([], f) => Some f | _ => None end
  | None => None
  end.
Definition keeping (a : string) : bool :=
  match find_prop L c a with Some q => match p_set q with Plain _ _ _ _ _ _ | Raw _ => true | _ => false end | None => false end.
Definition act_field (x : act) : option (option string) :=
  match x with
  | AAttr a _ => option_map Some (top a)
  | ACustom a _ => Some (Some a)
  | AField f _ => Some (Some f)
  | AKeep _ _ | APlace _ _ | AMode _ => Some None
  end.
Lemma kind_skey f s : kind f s -> s = SAttr f \/ s = SItem f.
Proof. exact (fun H => H). Qed.
Lemma write_top fs f s w : kind f s -> write (TModel fs) [] s w = Ok (TModel (dset eqs fs f w)).
Proof. intros [->| ->]; reflexivity. Qed.

(** What a setter that checks makes of a value. *)
Definition verified (md : mode) (a : string) (v w : tree) : Prop :=
  exists q m n M, find_prop L c a = Some q /\ guard (p_set q) = Some (m, n) /\ model_of L c m = Ok M /\
    if declared L M n then exists strict t, verify W md strict M n t v = Ok w else w = v.
Lemma assign_raw fs a v f : top a = Some f -> keeping a = true ->
  assign L (verify W) c MNone (TModel fs) a v = (TModel (dset eqs fs f v), None).
Proof.
  unfold top, keeping, assign. destruct (find_prop L c a) as [q|] eqn:F; [|discriminate].
  destruct (setter_cell L c (p_set q)) as [([|] & g)|] eqn:S; try discriminate. intros H K. injection H as ->.
  apply setter_cell_keeps in S. destruct (p_set q) as [e m t n p1 p2|m t n|p|m t n p|]; try discriminate; cbn [keeps] in S.
  - destruct S as (_ & _ & K2 & K3). cbn [mode_bool].
    assert (P : forall p fs, names_cell L c p ([], f) -> put L c p v (TModel fs) = Ok (TModel (dset eqs fs f v))).
    { intros p fs0 N. destruct (put_cell L c p ([], f) v (TModel fs0) N) as (s & S1 & _ & ->). cbn [fst snd] in *. apply write_top. exact S1. }
    destruct e as [|p|p]; cbn [then_].
    + rewrite (P p2) by exact K2. reflexivity.
    + rewrite (P p) by exact K3. cbn [done then_ mode_bool]. rewrite (P p2) by exact K2. cbn [done]. apply (f_equal (fun l => (TModel l, @None exn))).
      pose proof (write_twice (TModel fs) [] (SAttr f) v (TModel (dset eqs fs f v)) (SAttr f) v f (or_introl eq_refl) (or_introl eq_refl) eq_refl) as X.
      cbn in X. injection X as X. exact X.
    + change (mode_bool MNone) with false. cbv iota. cbn [then_]. rewrite (P p2) by exact K2. reflexivity.
  - destruct (put_cell L c p ([], f) v (TModel fs) S) as (s & S1 & _ & ->). cbn [fst snd] in *. rewrite (write_top fs f s v S1). reflexivity.
Qed.
Lemma assign_top md fs a v f t' : top a = Some f -> assign L (verify W) c md (TModel fs) a v = (t', None) ->
  exists w, t' = TModel (dset eqs fs f w) /\ (w = v \/ verified md a v w) /\ (md = MNone -> keeping a = true -> w = v) /\
    (md <> MNone \/ keeping a = false -> guard (match find_prop L c a with Some q => p_set q | None => ReadOnly end) <> None -> verified md a v w).
Proof.
  intros H E. pose proof H as H0. unfold top in H. destruct (find_prop L c a) as [q|] eqn:F; [|discriminate].
  destruct (setter_cell L c (p_set q)) as [([|] & g)|] eqn:S; try discriminate. injection H as ->.
  apply setter_cell_keeps in S. pose proof (assign_cell L (verify W) c md (TModel fs) a v q ([], f) F S) as H.
  rewrite E in H. destruct H as (w & Tk & s & S1 & S2 & _). cbn [fst snd] in *. rewrite (write_top fs f s w S1) in S2. injection S2 as <-.
  exists w. split; [reflexivity|]. destruct Tk as (q' & F' & Tk). rewrite F in F'. injection F' as <-.
  assert (MK : md = MNone -> keeping a = true -> w = v).
  { intros -> K. pose proof (assign_raw fs a v f H0 K) as R. rewrite E in R. injection R as R.
    assert (X : dget eqs (dset eqs fs f w) f = dget eqs (dset eqs fs f v) f) by (rewrite R; reflexivity).
    rewrite !(dget_dset _ eqs_eq) in X. rewrite eqs_refl in X. injection X as X. exact X. }
  split; [|split; [exact MK|]].
  - destruct (guard (p_set q)) as [(m & n)|] eqn:G; [|left; exact Tk]. destruct Tk as [(_ & _ & Tk)|(M & M1 & M2)]; [left; exact Tk|].
    right. exists q, m, n, M. auto.
  - intros C G. destruct (guard (p_set q)) as [(m & n)|] eqn:G'; [|congruence].
    destruct Tk as [(-> & (e & m' & t & n' & p1 & p2 & P) & _)|(M & M1 & M2)]; [|exists q, m, n, M; auto].
    exfalso. destruct C as [C|C]; [congruence|]. unfold keeping in C. rewrite F, P in C. discriminate.
Qed.

(** The value an act stores. *)
Definition lands (md : mode) (x : act) (w : tree) : Prop :=
  match x with
  | AAttr a v => (md = MNone -> keeping a = true -> w = sval v) /\
      (md <> MNone \/ keeping a = false -> guard (match find_prop L c a with Some q => p_set q | None => ReadOnly end) <> None -> verified md a (sval v) w)
  | ACustom a v => adapt W a (sval v) = Ok w
  | AField _ v => w = sval v
  | _ => True
  end.
Lemma do_act_root o x o' fs g : o_root o = TModel fs -> act_field x = Some g -> do_act o x = Ok o' ->
  match g with
  | Some f => exists w, o_root o' = TModel (dset eqs fs f w) /\ lands (o_mode o) x w
  | None => o_root o' = o_root o
  end.
Proof.
  intros R A H. destruct x as [a v|a v|a v|f v|p t|v]; cbn [do_act act_field lands] in *.
  - destruct (top a) as [f|] eqn:Tp; [|discriminate]. injection A as <-. rewrite R in H.
    destruct (assign L (verify W) c (o_mode o) (TModel fs) a (sval v)) as [t' [e|]] eqn:E; [discriminate|]. injection H as <-.
    destruct (assign_top _ _ _ _ _ _ Tp E) as (w & -> & _ & H). exists w. split; [reflexivity|exact H].
  - injection A as <-. destruct (adapt W a (sval v)) as [w|]; [|discriminate]. cbn [bind] in H. rewrite R in H. cbn in H. injection H as <-.
    exists w. split; reflexivity.
  - injection A as <-. injection H as <-. reflexivity.
  - injection A as <-. rewrite R in H. cbn in H. injection H as <-. eexists. split; reflexivity.
  - injection A as <-. injection H as <-. reflexivity.
  - injection A as <-. destruct (to_mode W (sval v)) as [m|]; [|discriminate]. injection H as <-. reflexivity.
Qed.

(** The name stays what [Entity.__init__] made it. *)
Definition nameless (x : act) : bool := match act_field x with Some (Some f) => negb (eqs f "name") | Some None => true | None => false end.
Definition shaped (root : tree) : Prop := exists fs, root = TModel fs /\ dget eqs fs "name" = Some nm.
Lemma shaped_named root : shaped root -> named root.
Proof. intros (fs & -> & H). unfold named. cbn [child]. rewrite H. reflexivity. Qed.
Lemma do_act_shaped o x o' : shaped (o_root o) -> nameless x = true -> do_act o x = Ok o' -> shaped (o_root o').
Proof.
  intros (fs & R & N) X H. unfold nameless in X. destruct (act_field x) as [g|] eqn:A; [|discriminate].
  pose proof (do_act_root o x o' fs g R A H) as E. destruct g as [f|].
  - destruct E as (w & -> & _). exists (dset eqs fs f w). split; [reflexivity|]. rewrite (dget_dset _ eqs_eq).
    apply negb_true_iff in X. unfold eqs in *. rewrite X. exact N.
  - rewrite E, R. exists fs. auto.
Qed.
Lemma acts_ok se env s kw l al o : env_agree se env -> agree s kw -> acts_of se s l = Some al -> shaped (o_root o) -> forallb nameless al = true ->
  stmts W L c env kw o l = do_acts o al.
Proof.
  intros E A. revert al o. induction l as [|x l IH]; intros al o H R N; cbn [acts_of stmts] in *; [injection H as <-; reflexivity|].
  destruct (act_of se s x) as [y|] eqn:Y; [|discriminate]. destruct (acts_of se s l) as [al'|]; [|discriminate]. cbn [omap2] in H. injection H as <-.
  cbn [forallb] in N. apply andb_prop in N. destruct N as (N1 & N2). cbn [do_acts].
  assert (X : step_stmt W L c env kw o x = do_act o y).
  { pose proof (shaped_named _ R) as Nd.
    destruct x as [a e|a e|a e|f e| |e]; cbn [act_of] in Y;
      try (destruct (seval se s e) as [v|] eqn:V; [|discriminate]; cbn [option_map] in Y; injection Y as <-; cbn [step_stmt do_act];
           rewrite (seval_ok se env s kw (o_root o) e v E A V (or_introl Nd)); reflexivity).
    destruct (dget eqs se "tile_position") as [tv|] eqn:TP; [|discriminate]. cbn [option_map] in Y. injection Y as <-. cbn [step_stmt do_act].
    unfold where_to, place_of. rewrite (A "position"), (env_get se _ _ E), TP. cbn [option_map].
    destruct (slook s "position") as [|v|]; cbn [pv sval const_of]; [destruct (dget eqs kw0 "position")| |]; reflexivity. }
  rewrite X. destruct (do_act o y) as [o'|] eqn:D; [|reflexivity]. cbn [bind]. apply IH; [reflexivity| |exact N2].
  exact (do_act_shaped o y o' R N1 D).
Qed.
Lemma do_acts_shaped l o o' : shaped (o_root o) -> forallb nameless l = true -> do_acts o l = Ok o' -> shaped (o_root o').
Proof.
  revert o. induction l as [|x l IH]; intros o R N H; cbn [do_acts forallb] in *; [injection H as <-; exact R|].
  apply andb_prop in N. destruct N as (N1 & N2). destruct (do_act o x) as [o1|] eqn:D; [|discriminate].
  exact (IH o1 (do_act_shaped _ _ _ R N1 D) N2 H).
Qed.

(** ** The chain of initialisers *)
Definition fit (F : flat) : bool := forallb given (f_need F) && negb (existsb given (f_bad F)).
Lemma forallb_app' {A} (f : A -> bool) l l' : forallb f (l ++ l') = forallb f l && forallb f l'.
Proof. apply forallb_app. Qed.
Theorem flatten_ok ch s kw F : flatten T ch s = Some F -> agree s kw -> forallb nameless (f_acts F) = true ->
  (forall kw' o, agree (f_base F) kw' -> entity_init T W L c kw' = Ok o -> shaped (o_root o)) ->
  if fit F then exists kw', agree (f_base F) kw' /\ construct T W L c ch kw = (let* o := entity_init T W L c kw' in do_acts o (f_acts F))
  else construct T W L c ch kw = Err TypeError.
Proof.
  revert s kw F. induction ch as [|d ch IH]; intros s kw F H A N EN; cbn [flatten construct] in *; [discriminate|].
  destruct (eqs d "Entity").
  { injection H as <-. cbn [fit f_need f_bad forallb existsb f_base f_acts]. exists kw. split; [exact A|].
    cbn [do_acts]. destruct (entity_init T W L c kw); reflexivity. }
  destruct (dget eqs (d_inits T) d) as [i|]; [|exact (IH s kw F H A N EN)].
  destruct (sbind d (i_params i) s) as [(se & need)|] eqn:SB; [|discriminate].
  destruct (sargs se (swithout (map fst (i_params i)) s) (i_call i)) as [(s2 & bad)|] eqn:SA; [|discriminate].
  destruct (acts_of se (swithout (map fst (i_params i)) s) (i_post i)) as [al|] eqn:AC; [|discriminate].
  destruct (flatten T ch s2) as [G|] eqn:FL; [|discriminate]. cbn [option_map] in H. injection H as <-. cbn [f_base f_need f_bad f_acts] in *.
  rewrite forallb_app in N. apply andb_prop in N. destruct N as (N1 & N2).
  unfold fit. cbn [f_need f_bad]. rewrite forallb_app, existsb_app.
  pose proof (sbind_ok d _ s kw se need A SB) as B. destruct (forallb given need); [|rewrite B; reflexivity].
  destruct B as (env & B & E). rewrite B. cbn [bind andb].
  pose proof (sargs_ok se env _ _ _ _ _ E (without_ok (map fst (i_params i)) s kw A) SA) as B2.
  destruct (existsb given bad); [rewrite B2; rewrite andb_false_r; reflexivity|]. cbn [orb].
  destruct B2 as (kw2 & B2 & A2). rewrite B2. cbn [bind].
  pose proof (IH s2 kw2 G FL A2 N1 EN) as I2. unfold fit in I2.
  destruct (forallb given (f_need G) && negb (existsb given (f_bad G))); [|rewrite I2; reflexivity].
  destruct I2 as (kw' & A' & ->). exists kw'. split; [exact A'|].
  destruct (entity_init T W L c kw') as [o|] eqn:EI; [|reflexivity]. cbn [bind]. rewrite do_acts_app.
  destruct (do_acts o (f_acts G)) as [o1|] eqn:D; [|reflexivity]. cbn [bind].
  apply (acts_ok se env (swithout (map fst (i_params i)) s)); [exact E|exact (without_ok _ _ _ A)|exact AC| |exact N2].
  exact (do_acts_shaped _ _ _ (EN kw' o A' EI) N1 D).
Qed.

(** ** [Entity.__init__] *)
Definition act_closed (x : act) : bool :=
  match x with AAttr _ v | ACustom _ v | AKeep _ v | AField _ v | AMode v => closed v | APlace _ _ => true end.
Lemma acts_closed_ok se env s kw l al o : env_agree se env -> agree s kw -> acts_of se s l = Some al -> forallb act_closed al = true ->
  stmts W L c env kw o l = do_acts o al.
Proof.
  intros E A. revert al o. induction l as [|x l IH]; intros al o H N; cbn [acts_of stmts] in *; [injection H as <-; reflexivity|].
  destruct (act_of se s x) as [y|] eqn:Y; [|discriminate]. destruct (acts_of se s l) as [al'|]; [|discriminate]. cbn [omap2] in H. injection H as <-.
  cbn [forallb] in N. apply andb_prop in N. destruct N as (N1 & N2). cbn [do_acts].
  assert (X : step_stmt W L c env kw o x = do_act o y).
  { destruct x as [a e|a e|a e|f e| |e]; cbn [act_of] in Y;
      try (destruct (seval se s e) as [v|] eqn:V; [|discriminate]; cbn [option_map] in Y; injection Y as <-; cbn [step_stmt do_act act_closed] in *;
           rewrite (seval_ok se env s kw (o_root o) e v E A V (or_intror N1)); reflexivity).
    destruct (dget eqs se "tile_position") as [tv|] eqn:TP; [|discriminate]. cbn [option_map] in Y. injection Y as <-. cbn [step_stmt do_act].
    unfold where_to, place_of. rewrite (A "position"), (env_get se _ _ E), TP. cbn [option_map].
    destruct (slook s "position") as [|v|]; cbn [pv sval const_of]; [destruct (dget eqs kw0 "position")| |]; reflexivity. }
  rewrite X. destruct (do_act o y) as [o'|] eqn:D; [|reflexivity]. cbn [bind]. apply IH; [reflexivity|exact N2].
Qed.

(** The position that is [None] counts as absent from here on. *)
Definition start (root : tree) : obj := {| o_mode := MNone; o_root := root; o_place := (false, TVal 0); o_own := [] |}.
Definition base_get (s : skw) (vn vq : sv) (k : string) : option tree :=
  match match pv k (slook s k) with Some v => if eqs k "position" && is_none v then None else Some v | None => None end with
  | Some v => Some v
  | None => dget eqs [("name", sval vn); ("quality", sval vq); ("position", origin); ("entity_number", TVal 0)] k
  end.
Lemma dget_app' (d e : dict) k : dget eqs (d ++ e) k = match dget eqs d k with Some v => Some v | None => dget eqs e k end.
Proof. induction d as [|(x & v) d IH]; [reflexivity|]. cbn [app dget]. destruct (eqs x k); [reflexivity|exact IH]. Qed.
Lemma entity_ok s kw se need al vn vq : agree s kw -> sbind "Entity" entity_params s = Some (se, need) ->
  dget eqs se "name" = Some vn -> dget eqs se "quality" = Some vq ->
  acts_of se (swithout (map fst entity_params) s) entity_post = Some al -> forallb act_closed al = true ->
  if forallb given need then
    exists d, (forall k, dget eqs d k = base_get (swithout (map fst entity_params) s) vn vq k) /\
      (forall k v, In (k, v) d -> exists u, dget eqs d k = Some u) /\
      entity_init T W L c kw = if is_none (sval vn) then Err DataFormatError else
        let* M := model_of L c [] in let* root := build T W L M d in do_acts (start root) al
  else entity_init T W L c kw = Err TypeError.
Proof.
  intros A SB VN VQ AC CL. unfold entity_init. pose proof (sbind_ok "Entity" _ s kw se need A SB) as B.
  destruct (forallb given need); [|rewrite B; reflexivity]. destruct B as (env & B & E). rewrite B. cbn [bind].
  rewrite !(env_get se _ _ E), VN, VQ. cbn [option_map].
  pose proof (without_ok (map fst entity_params) s kw A) as A1. set (kw1 := without (map fst entity_params) kw) in *.
  set (s1 := swithout (map fst entity_params) s) in *.
  set (kw2 := match dget eqs kw1 "position" with Some v => if is_none v then without ["position"] kw1 else kw1 | None => kw1 end).
  assert (G2 : forall k, dget eqs kw2 k = match pv k (slook s1 k) with Some v => if eqs k "position" && is_none v then None else Some v | None => None end).
  { intros k. unfold kw2. destruct (dget eqs kw1 "position") as [u|] eqn:P.
    - destruct (is_none u) eqn:U.
      + unfold without. rewrite (dget_filter (fun k => negb (mem k ["position"]))), (A1 k). cbn [mem existsb]. rewrite orb_false_r.
        destruct (eqs k "position") eqn:K; cbn [negb andb]; [|destruct (pv k (slook s1 k)); reflexivity].
        apply eqs_eq in K. subst k. rewrite <- (A1 "position"), P, U. reflexivity.
      + rewrite (A1 k). destruct (eqs k "position") eqn:K; cbn [andb]; [|destruct (pv k (slook s1 k)); reflexivity].
        apply eqs_eq in K. subst k. rewrite <- (A1 "position"), P, U. reflexivity.
    - rewrite (A1 k). destruct (eqs k "position") eqn:K; cbn [andb]; [|destruct (pv k (slook s1 k)); reflexivity].
      apply eqs_eq in K. subst k. rewrite <- (A1 "position"), P. reflexivity. }
  eexists. split; [|split; [|]]; cycle 2.
  - destruct (is_none (sval vn)); [reflexivity|]. destruct (model_of L c []) as [M|]; [|reflexivity]. cbn [bind].
    match goal with |- (let* root := ?x in _) = _ => destruct x as [root|] eqn:BL end; cbn [bind].
    + rewrite BL. cbn [bind].
      (* the statements see the keywords with or without the position *)
      assert (X : forall al o, acts_of se s1 entity_post = Some al -> forallb act_closed al = true -> stmts W L c env kw2 o entity_post = do_acts o al).
      { clear -E A1 G2. intros al o. assert (EV : forall e v root, seval se s1 e = Some v -> closed v = true -> (forall k d, e = Kw k d -> eqs k "position" = false) ->
          (forall k j, e <> KwOf k j) -> (forall k j, e <> InputOr k j) -> eval W env kw2 root e = Ok (sval v)).
        { intros e v root H C NP NK NI. rewrite <- (seval_ok se env s1 kw1 root e v E A1 H (or_intror C)).
          destruct e as [p|p d|k d|k j|d|p k]; cbn [eval]; try reflexivity.
          - rewrite (G2 k), (NP k d eq_refl), (A1 k). cbn [andb]. destruct (pv k (slook s1 k)); reflexivity.
          - destruct (NK _ _ eq_refl).
          - destruct (NI _ _ eq_refl). }
        unfold entity_post. cbn [acts_of]. 
        repeat match goal with |- context [omap2 cons (act_of se s1 ?x) _] => destruct (act_of se s1 x) eqn:?; cbn [omap2]; [|intros; discriminate] end.
        cbn [omap2]. intros H C. injection H as <-. cbn [forallb] in C. rewrite !andb_true_iff in C. destruct C as (C1 & C2 & C3 & C4 & C5 & C6 & _).
        assert (ST : forall x y o, act_of se s1 x = Some y -> act_closed y = true -> In x entity_post -> step_stmt W L c env kw2 o x = do_act o y).
        { intros x y o' Y Cy I. cbn [entity_post In] in I. destruct I as [<-|[<-|[<-|[<-|[<-|[<-|[]]]]]]]; cbn [act_of] in Y;
            try (match type of Y with option_map _ (seval se s1 ?e) = _ => destruct (seval se s1 e) as [v|] eqn:V; [|discriminate] end; cbn [option_map] in Y; injection Y as <-;
                 cbn [step_stmt do_act act_closed] in *; erewrite EV; [reflexivity|exact V|exact Cy| | |]; intros; try discriminate;
                 match goal with H : Kw _ _ = Kw _ _ |- _ => injection H as <- <-; reflexivity end).
          destruct (dget eqs se "tile_position") as [tv|] eqn:TP; [|discriminate]. cbn [option_map] in Y. injection Y as <-. cbn [step_stmt do_act].
          unfold where_to, place_of. rewrite (G2 "position"), (env_get se _ _ E), TP. cbn [option_map andb]. rewrite eqs_refl. cbn [andb].
          destruct (slook s1 "position") as [|v|]; cbn [pv sval const_of]; [destruct (dget eqs kw0 "position") as [v|]| |].
          - destruct (is_none v) eqn:Nv; cbn; rewrite ?Nv; reflexivity.
          - reflexivity.
          - destruct (is_none (sval v)) eqn:Nv; cbn; rewrite ?Nv; reflexivity.
          - reflexivity. }
        unfold entity_post in ST. cbn [stmts do_acts].
        repeat (erewrite ST by (first [eassumption|cbn [In]; tauto]); match goal with |- bind ?x _ = _ => destruct x; [|reflexivity] end; cbn [bind]).
        reflexivity. }
      apply X; assumption.
    + rewrite BL. reflexivity.
  - intros k. rewrite dget_app', G2. reflexivity.
  - intros k v H. apply (in_map fst) in H. cbn [fst] in H.
    destruct (dget eqs (kw2 ++ [("name", sval vn); ("quality", sval vq); ("position", origin); ("entity_number", TVal 0)]) k) as [u|] eqn:G; [exists u; reflexivity|].
    apply (dget_none _ eqs_eq) in G. contradiction.
Qed.
End Sound.
