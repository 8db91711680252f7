From Coq Require Import ZArith List Bool Lia Permutation.
From Verif Require Import Common Spatial_Model Spatial_Spec Spatial_Proofs Position_Model Position_Spec
  Position_Proofs Transform_Model Transform_Spec Transform_Proofs.
Import ListNotations.
Local Open Scope Z_scope.

Section T.
  Variable H : Z.
  Hypothesis HH : 0 < H.

  (** Closed forms. *)
  Definition place_ent (e : ent) (x y : Z) : ent :=
    match kd e with
    | Grp => with_held (with_pos e x y (tx e) (ty e)) true
    | _ => with_held (with_pos e x y (snap H (x - w e * H)) (snap H (y - h e * H))) true
    end.
  Definition face (e : ent) (d v : Z) : ent :=
    with_size (with_dir e (Some d)) (fst (size_facing e v)) (snd (size_facing e v)).

  Lemma move_closed : forall x y e, finish with_held (move_ent H x y) e = Ok (place_ent e (px e + x) (py e + y)).
  Proof.
    intros. unfold finish, move_ent, set_position, place_ent. simpl. destruct e as [k ? ? ? ? ? ? ? ? ? ? ? ? ?]; destruct k; reflexivity.
  Qed.

  Lemma set_dir_pos : forall e v x y, held e = false -> directional e ->
    (let* e1 := set_direction H e v in set_position H e1 (PTuple x y)) =
    (let* d := checked_direction e v in
     Ok (with_held (place_ent (face e d (match kd e with Dir4 => v | _ => d end)) x y) false)).
  Proof.
    intros e v x y Hh D.
    destruct e as [k m o fl sw0 sh0 w0 h0 px0 py0 tx0 ty0 hd ot]. simpl in Hh. subst hd.
    destruct D as [D|D]; simpl in D; subst k; unfold set_direction, face, size_facing, sideways, place_ent;
      cbn [kd sw sh w h];
      match goal with |- context [checked_direction ?a ?b] => destruct (checked_direction a b) as [d|z] end;
      try reflexivity; cbn [bind].
    - destruct ((v =? 4) || (v =? 12)); cbn [fst snd];
      match goal with |- context [if ?c then reset_tile _ _ else _] => destruct c end; reflexivity.
    - destruct ((d =? 2) || (d =? 3) || (d =? 6) || (d =? 7)); reflexivity.
  Qed.

  (** Turning an entity by a rule [g] and putting it at [(x, y)]. *)
  Definition act (g : Z -> Z) (x y : Z) (e : ent) : result ent :=
    let* e1 := add_direction H g e in set_position H e1 (PTuple x y).

  Lemma act_dir : forall g x y e, held e = false -> directional e ->
    act g x y e = match dir e with
                  | None => Err TypeError
                  | Some d => let* e1 := set_direction H e (d + g d) in set_position H e1 (PTuple x y)
                  end.
  Proof.
    intros g x y e Hh D. unfold act, add_direction, rotatable, get_direction.
    destruct D as [K|K]; rewrite K; cbn [bind]; destruct (dir e); reflexivity.
  Qed.

  Lemma act_closed : forall g x y e,
    finish with_held (fun e => act g x y e) e =
    match kd e with
    | Fixed => Ok (place_ent e x y)
    | Grp => Err AttributeError
    | k => match dir e with
           | None => Err TypeError
           | Some d => let* d' := checked_direction e (d + g d) in
                       Ok (place_ent (face e d' (match k with Dir4 => d + g d | _ => d' end)) x y)
           end
    end.
  Proof.
    intros g x y e.
    assert (C : forall v, checked_direction (with_held e false) v = checked_direction e v) by reflexivity.
    assert (Q : forall z vv, directional e ->
       with_held (with_held (place_ent (face (with_held e false) z vv) x y) false) true
       = place_ent (face e z vv) x y).
    { intros z vv [K|K]; unfold place_ent, face, size_facing; simpl; rewrite K; reflexivity. }
    destruct (kd e) eqn:K; unfold finish.
    - unfold act, add_direction, rotatable. replace (kd (with_held e false)) with Fixed by (symmetry; exact K).
      cbn [bind]. unfold set_position, place_ent. cbn. rewrite K. reflexivity.
    - assert (D : directional e) by (left; assumption).
      rewrite act_dir by (try reflexivity; exact D). cbn [dir with_held].
      destruct (dir e) as [d|]; [|reflexivity].
      rewrite set_dir_pos by (try reflexivity; exact D). rewrite C.
      destruct (checked_direction e (d + g d)) as [z|z]; cbn [bind]; [|reflexivity].
      rewrite Q by assumption. cbn [kd with_held]. rewrite K. reflexivity.
    - assert (D : directional e) by (right; assumption).
      rewrite act_dir by (try reflexivity; exact D). cbn [dir with_held].
      destruct (dir e) as [d|]; [|reflexivity].
      rewrite set_dir_pos by (try reflexivity; exact D). rewrite C.
      destruct (checked_direction e (d + g d)) as [z|z]; cbn [bind]; [|reflexivity].
      rewrite Q by assumption. cbn [kd with_held]. rewrite K. reflexivity.
    - unfold act, add_direction, rotatable, get_direction.
      replace (kd (with_held e false)) with Grp by (symmetry; exact K). reflexivity.
  Qed.

  (** Place of the image. *)
  Lemma place_agree : forall e x y, kd e <> Grp -> agree H (place_ent e x y).
  Proof.
    intros e x y K. unfold place_ent. destruct (kd e); try congruence; split; simpl; apply snap_in_step; assumption.
  Qed.
  Lemma place_place : forall e x y, place (place_ent e x y) = (x, y).
  Proof. intros. unfold place_ent, place. destruct (kd e); reflexivity. Qed.
  Lemma place_same : forall e x y, held e = true -> same_thing e (place_ent e x y).
  Proof. intros e x y E. unfold place_ent, same_thing. destruct (kd e) eqn:K; simpl; rewrite E, ?K; repeat split. Qed.
  Lemma place_dir : forall e x y, dir (place_ent e x y) = dir e.
  Proof. intros. unfold place_ent. destruct (kd e); reflexivity. Qed.
  Lemma place_kd : forall e x y, kd (place_ent e x y) = kd e.
  Proof. intros. unfold place_ent. destruct (kd e) eqn:K; simpl; assumption. Qed.

  (** *** loops as maps *)
  Lemma work_map : forall {A} (sh : A -> bool -> A) f (g : A -> A) l,
    (forall a, In a l -> finish sh f a = Ok (g a)) ->
    work sh f l = (map g l, None).
  Proof.
    intros A sh0 f g. induction l as [|a l IH]; intros E; [reflexivity|]. simpl.
    specialize (IH (fun b Hb => E b (or_intror Hb))). pose proof (E a (or_introl eq_refl)) as Ea.
    unfold finish in Ea. destruct (f (sh0 a false)); [|discriminate]. inversion Ea; subst.
    rewrite IH. reflexivity.
  Qed.
  Lemma work_some : forall {A} (sh : A -> bool -> A) f l,
    snd (work sh f l) = None <-> (forall a, In a l -> is_ok (finish sh f a) = true).
  Proof.
    intros A sh0 f. induction l as [|a l IH]; simpl; [tauto|].
    unfold finish in *. destruct (f (sh0 a false)) as [b|x] eqn:F; simpl.
    - rewrite IH. split; [intros E c [<-|Hc]; [rewrite F; reflexivity|auto]|auto].
    - split; [discriminate|]. intros E. specialize (E a (or_introl eq_refl)). rewrite F in E. discriminate.
  Qed.

  Variable cs eps : Z.
  Variable box : ent -> option nat -> option zbox.
  Variable eeq : ent * option nat -> ent * option nat -> bool.
  Variable tbox : ttile -> option nat -> option zbox.
  Variable teq : ttile * option nat -> ttile * option nat -> bool.
  Notation both' := (both cs eps box eeq tbox teq).

  Lemma both_lists : forall fe ft b,
    let r := both' fe ft b in
    match snd (work with_held fe (b_ents b)) with
    | Some x => snd r = Some x /\ b_ents (fst r) = fst (work with_held fe (b_ents b)) /\
                b_tiles (fst r) = b_tiles b /\ b_tmap (fst r) = b_tmap b
    | None => snd r = snd (work tt_set_held ft (b_tiles b)) /\
              b_ents (fst r) = fst (work with_held fe (b_ents b)) /\
              b_tiles (fst r) = fst (work tt_set_held ft (b_tiles b))
    end.
  Proof.
    intros fe ft b. unfold both.
    pose proof (walk_all_work cs eps box eeq with_held fe (b_ents b) (b_emap b)) as [E1 E2].
    destruct (walk_all cs eps box eeq with_held fe (b_ents b) (b_emap b)) as [[l m] x].
    cbn [fst snd] in E1, E2. subst l x.
    destruct (snd (work with_held fe (b_ents b))) as [x|]; [cbn; auto|].
    pose proof (walk_all_work cs eps tbox teq tt_set_held ft (b_tiles b) (b_tmap b)) as [E3 E4].
    destruct (walk_all cs eps tbox teq tt_set_held ft (b_tiles b) (b_tmap b)) as [[l' m'] x'].
    cbn [fst snd] in E3, E4. subst l' x'. cbn. auto.
  Qed.

  Lemma both_map : forall fe ft ge gt b,
    (forall e, In e (b_ents b) -> finish with_held fe e = Ok (ge e)) ->
    (forall t, In t (b_tiles b) -> finish tt_set_held ft t = Ok (gt t)) ->
    snd (both' fe ft b) = None /\ b_ents (fst (both' fe ft b)) = map ge (b_ents b) /\
    b_tiles (fst (both' fe ft b)) = map gt (b_tiles b).
  Proof.
    intros fe ft ge gt b E1 E2. pose proof (both_lists fe ft b) as B. cbn zeta in B.
    rewrite (work_map with_held fe ge _ E1) in B. cbn [snd fst] in B.
    rewrite (work_map tt_set_held ft gt _ E2) in B. exact B.
  Qed.

  Lemma forall2_map : forall {A} (g : A -> A) (Q : A -> A -> Prop) l, (forall a, In a l -> Q a (g a)) -> Forall2 Q l (map g l).
  Proof. intros A g Q. induction l; intros E; simpl; constructor; [apply E; left; reflexivity|apply IHl; intros; apply E; right; assumption]. Qed.

  (** *** index *)
  Lemma both_index : forall fe ft b, 0 < cs -> equality box eeq -> equality tbox teq ->
    synced cs eps box eeq (b_ents b) (b_emap b) -> synced cs eps tbox teq (b_tiles b) (b_tmap b) ->
    snd (both' fe ft b) = None ->
    let b' := fst (both' fe ft b) in
    holds cs eps box (b_ents b') (b_emap b') (members (b_ents b')) /\
    holds cs eps tbox (b_tiles b') (b_tmap b') (members (b_tiles b')).
  Proof.
    intros fe ft b Hcs Q1 Q2 S1 S2. unfold both.
    pose proof (walk_all_ok cs eps Hcs box eeq Q1 with_held fe (b_ents b) (b_emap b) _ S1 eq_refl) as W1.
    destruct (walk_all cs eps box eeq with_held fe (b_ents b) (b_emap b)) as [[l m] [x|]]; [discriminate|].
    pose proof (walk_all_ok cs eps Hcs tbox teq Q2 tt_set_held ft (b_tiles b) (b_tmap b) _ S2 eq_refl) as W2.
    destruct (walk_all cs eps tbox teq tt_set_held ft (b_tiles b) (b_tmap b)) as [[l' m'] x'].
    intros E. cbn in *. auto.
  Qed.

  Lemma both_err : forall fe ft b x, (forall t, In t (b_tiles b) -> is_ok (finish tt_set_held ft t) = true) ->
    snd (both' fe ft b) = Some x -> broken fe b (fst (both' fe ft b)) x.
  Proof.
    intros fe ft b x T E. pose proof (both_lists fe ft b) as B. cbn zeta in B.
    destruct (snd (work with_held fe (b_ents b))) as [y|] eqn:W.
    - destruct B as [B1 [B2 [B3 B4]]]. assert (x = y) by congruence. subst y.
      destruct (work_err with_held fe _ _ W) as [pre [e [post [E1 [E2 [E3 [E4 E5]]]]]]].
      exists pre, e, post. split; [assumption|]. split.
      + exists (fst (work with_held fe pre)). split; [|rewrite B2; assumption].
        clear -E3. induction E3 as [|a l [a2 Ea] _ IH]; simpl; [constructor|].
        rewrite Ea. constructor; [unfold finish; rewrite Ea; reflexivity|assumption].
      + split; [unfold finish; rewrite E2; reflexivity|]. auto.
    - destruct B as [B1 _]. apply work_some in T. congruence.
  Qed.

  Lemma both_err_index : forall fe ft b x, 0 < cs -> equality box eeq ->
    synced cs eps box eeq (b_ents b) (b_emap b) ->
    (forall t, In t (b_tiles b) -> is_ok (finish tt_set_held ft t) = true) ->
    snd (both' fe ft b) = Some x ->
    let b' := fst (both' fe ft b) in
    exists j s, (j < length (b_ents b))%nat /\
      holds cs eps box (b_ents b') (b_emap b') s /\ Permutation ((j, None) :: s) (members (b_ents b)) /\
      exists e, nth_error (b_ents b) j = Some e /\ finish with_held fe e = Err x.
  Proof.
    intros fe ft b x Hcs Q S T. unfold both.
    pose proof (walk_all_err cs eps Hcs box eeq Q with_held fe (b_ents b) (b_emap b)) as W.
    destruct (walk_all cs eps box eeq with_held fe (b_ents b) (b_emap b)) as [[l m] [y|]] eqn:E.
    - cbn [snd fst]. intros X. inversion X; subst.
      destruct (W _ x S eq_refl eq_refl) as [j [s [A1 [A2 [A3 [e [A4 A5]]]]]]].
      exists j, s. cbn in *. repeat split; auto; try apply A2.
      exists e. split; [assumption|]. unfold finish. rewrite A5. reflexivity.
    - pose proof (walk_all_work cs eps tbox teq tt_set_held ft (b_tiles b) (b_tmap b)) as [_ E4].
      destruct (walk_all cs eps tbox teq tt_set_held ft (b_tiles b) (b_tmap b)) as [[l' m'] x'].
      cbn [fst snd] in *. intros X. apply work_some in T. congruence.
  Qed.
End T.
