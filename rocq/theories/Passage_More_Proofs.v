(** Proofs about whole dictionaries sent as strings. *)
From Coq Require Import ZArith NArith QArith String List Bool Lia.
From Verif Require Import Common Dict Codec_Model Codec_Spec Codec_Proofs Trim_Model Trim_Proofs Wires_Model Wires_Spec Wires_Proofs
  Wires_Export_Proofs Wires_More_Proofs Document_Model Document_Spec Document_Proofs Document_Claims_Proofs Document_Read_Proofs
  Passage_Model Passage_Spec Passage_Proofs.
Import ListNotations.
Local Open Scope string_scope.
Local Open Scope list_scope.

Section Docs.
  Context {L : lib}.
  Variable N : numbers L.
  Hypothesis X : exact_numbers N.
  Notation to_json := (to_json L N).

  Lemma alike_get : forall K d d' k, alike N K d d' -> k <> K -> get d k = get d' k.
  Proof.
    intros K d d' k H NE. unfold get. induction H as [|[a x] [a' x'] d d' [E V] H IH]; [reflexivity|]. cbn [fst snd] in *. subst a'. cbn.
    destruct (pystr_eqb a k) eqn:Q; [|exact IH]. apply pystr_eqb_eq in Q. subst a. destruct V as [->|[E _]]; [reflexivity|contradiction].
  Qed.
  Lemma empty_json : forall v, to_json v = Ok (JList []) -> v = VSeq [].
  Proof.
    intros v H. destruct v as [| | | | |[|v l]|d|]; try discriminate H; [reflexivity| |].
    - rewrite seq_json in H. cbn [mapM] in H. destruct (to_json v); [|discriminate]. cbn [bind] in H. destruct (mapM _ l); discriminate.
    - rewrite map_json in H. destruct (mapM _ d); discriminate.
  Qed.
  Lemma alike_get' : forall K d d' k, alike N K d d' ->
    match get d k, get d' k with Some v, Some v' => to_json v = to_json v' | None, None => True | _, _ => False end.
  Proof.
    intros K d d' k H. unfold get. induction H as [|[a x] [a' x'] d d' [E V] H IH]; [exact Logic.I|]. cbn [fst snd] in *. subst a'. cbn.
    destruct (pystr_eqb a k) eqn:Q; [|exact IH]. destruct V as [->|[_ E]]; [reflexivity|exact E].
  Qed.
  Lemma alike_drop_zero : forall K d d' k, alike N K d d' -> k <> K -> alike N K (drop_zero k d) (drop_zero k d').
  Proof.
    intros K d d' k H NE. unfold drop_zero. rewrite <- (alike_get K d d' k H NE). destruct (get d k); [|exact H].
    destruct (py_eq _ _); [apply alike_del|]; exact H.
  Qed.
  Lemma alike_drop_empty : forall K d d' k, alike N K d d' -> alike N K (drop_empty k d) (drop_empty k d').
  Proof.
    intros K d d' k H. pose proof (alike_get' K d d' k H) as G. unfold drop_empty.
    destruct (get d k) as [v|], (get d' k) as [v'|]; try contradiction; [|exact H].
    assert (E : v = VSeq [] <-> v' = VSeq []).
    { split; intros ->; apply empty_json; [rewrite <- G|rewrite G]; reflexivity. }
    destruct v as [| | | | |[|]| |], v' as [| | | | |[|]| |]; try exact H; try (apply alike_del; exact H);
      exfalso; destruct E as [E1 E2]; first [discriminate (E1 eq_refl)|discriminate (E2 eq_refl)].
  Qed.
  Lemma alike_assemble : forall d es es' ts ss ws, to_json (VSeq es) = to_json (VSeq es') ->
    alike N (str "entities") (assemble d es ts ss ws) (assemble d es' ts ss ws).
  Proof.
    intros d es es' ts ss ws E. unfold assemble. repeat apply alike_drop_empty.
    apply alike_drop_zero; [|discriminate]. apply alike_drop_zero; [|discriminate].
    repeat (apply alike_set; [|first [left; reflexivity|right; split; [reflexivity|exact E]]]). apply alike_refl.
  Qed.

  (** ** Entities *)
  Definition same_place (o o' : Z * Z) (e e' : Q * Q * dict) : Prop :=
    (fst (fst e) - inject_Z (fst o) == fst (fst e') - inject_Z (fst o'))%Q /\
    (snd (fst e) - inject_Z (snd o) == snd (fst e') - inject_Z (snd o'))%Q /\
    forall v, set (snd e) (str "position") v = set (snd e') (str "position") v.
  Lemma placed_alike : forall o o' n e e', same_place o o' e e' -> to_json (VMap (placed o n e)) = to_json (VMap (placed o' n e')).
  Proof.
    intros o o' n e e' (Ex & Ey & S). rewrite !placed_simple, S. apply (alike_json N (str "position")).
    apply alike_set; [|left; reflexivity]. apply alike_set; [apply alike_refl|]. right. split; [reflexivity|].
    unfold at_place, vector. cbn. rewrite (one_number N X _ _ Ex), (one_number N X _ _ Ey). reflexivity.
  Qed.
  Lemma placed_all_alike : forall o o' l l', Forall2 (same_place o o') l l' -> forall n,
    to_json (VSeq (map VMap (placed_all o n l))) = to_json (VSeq (map VMap (placed_all o' n l'))).
  Proof.
    intros o o' l l' H n. rewrite !seq_json. f_equal. revert n. induction H as [|e e' l l' E H IH]; intro n; [reflexivity|].
    cbn [placed_all map mapM]. rewrite (placed_alike o o' n e e' E), IH. reflexivity.
  Qed.
  Lemma docs_alike : forall en ed b1 b2 x, dump en ed b1 = dump en ed b2 ->
    Forall2 (same_place (b_origin b1) (b_origin b2)) (flat_parts (b_parts b1)) (flat_parts (b_parts b2)) ->
    map (moved_tile (b_origin b1)) (b_tiles b1) = map (moved_tile (b_origin b2)) (b_tiles b2) ->
    sched_vals x b1 = sched_vals x b2 -> b_index b1 = b_index b2 ->
    to_json (VMap (doc_of en ed b1 x)) = to_json (VMap (doc_of en ed b2 x)).
  Proof.
    intros en ed b1 b2 x D P T S I. apply (alike_json N (str "blueprint")). unfold doc_of. rewrite I. constructor; [|apply alike_refl].
    split; [reflexivity|]. right. split; [reflexivity|]. cbn [snd]. apply (alike_json N (str "entities")).
    unfold body_of. rewrite D, S. rewrite <- !(map_map (moved_tile _) tile_dict), T. apply alike_assemble. apply placed_all_alike. exact P.
  Qed.

  (** ** Moved to where it will be read *)
  Definition settle (o : Z * Z) (e : Q * Q * dict) : part :=
    Ent 0 (Qred (fst (fst e) - inject_Z (fst o))) (Qred (snd (fst e) - inject_Z (snd o))) (snd e).
  Definition settled (b : sheet) : sheet :=
    mkSheet (b_label b) (b_color b) (b_description b) (b_icons b) (b_version b) (b_size b) (0, 0)%Z (b_absolute b) (b_relative b)
      (map (settle (b_origin b)) (flat_parts (b_parts b))) (b_ids b) (map (moved_tile (b_origin b)) (b_tiles b)) (b_scheds b) (b_wires b)
      (b_stock b) (b_index b).
  Lemma settled_flat : forall b, flat_parts (b_parts (settled b)) =
    map (fun e => (Qred (fst (fst e) - inject_Z (fst (b_origin b))), Qred (snd (fst e) - inject_Z (snd (b_origin b))), snd e)) (flat_parts (b_parts b)).
  Proof.
    intro b. cbn [settled b_parts]. unfold flat_parts at 1. induction (flat_parts (b_parts b)) as [|e l IH]; [reflexivity|]. cbn. f_equal. exact IH.
  Qed.
  Lemma moved_again : forall o ts, map (moved_tile (0, 0)%Z) (map (moved_tile o) ts) = map (moved_tile o) ts.
  Proof.
    intros o ts. rewrite map_map. apply map_ext. intro t. unfold moved_tile. cbn. rewrite !Z.sub_0_r. reflexivity.
  Qed.
  Lemma settled_alike : forall en ed b x, to_json (VMap (doc_of en ed b x)) = to_json (VMap (doc_of en ed (settled b) x)).
  Proof.
    intros en ed b x. apply docs_alike; try reflexivity.
    - rewrite settled_flat. cbn [settled b_origin]. induction (flat_parts (b_parts b)) as [|e l IH]; constructor; [|exact IH].
      unfold same_place. cbn [fst snd]. rewrite !minus_zero, !Qred_correct. repeat split; reflexivity.
    - cbn [settled b_origin b_tiles]. rewrite moved_again. reflexivity.
  Qed.

  (** ** It can be sent *)
  Definition goodp (n : nat) (p : pystr * val) : Prop := clean (fst p) /\ sendable N n (snd p).
  Lemma good_map : forall n d, NoDup (map fst d) -> Forall (goodp n) d -> sendable N (S n) (VMap d).
  Proof.
    intros n d ND F. rewrite Forall_forall in F. constructor; [exact ND| |]; intros k v I; apply (F _ I).
  Qed.
  Lemma good_set : forall n d k v, Forall (goodp n) d -> goodp n (k, v) -> Forall (goodp n) (set d k v).
  Proof.
    intros n d k v F G. unfold set. induction F as [|[a w] d [A W] F IH]; cbn; [constructor; [exact G|constructor]|].
    destruct (pystr_eqb a k); constructor; [split; [exact A|apply G]|exact F|split; assumption|exact IH].
  Qed.
  Lemma good_del : forall n d k, Forall (goodp n) d -> Forall (goodp n) (del d k).
  Proof.
    intros n d k F. unfold del. induction F as [|[a w] d G F IH]; cbn; [constructor|]. destruct (pystr_eqb a k); [exact F|constructor; assumption].
  Qed.
  Lemma good_drop_zero : forall n d k, Forall (goodp n) d -> Forall (goodp n) (drop_zero k d).
  Proof. intros n d k F. unfold drop_zero. destruct (get d k); [|exact F]. destruct (py_eq _ _); [apply good_del|]; exact F. Qed.
  Lemma good_drop_empty : forall n d k, Forall (goodp n) d -> Forall (goodp n) (drop_empty k d).
  Proof. intros n d k F. unfold drop_empty. destruct (get d k) as [[| | | | |[|]| |]|]; try exact F. apply good_del. exact F. Qed.
  Lemma good_field : forall n en ed k dv v, clean k -> sendable N n v -> Forall (goodp n) (field en ed k dv v).
  Proof. intros. unfold field. destruct (_ || _); [constructor|]. constructor; [split; assumption|constructor]. Qed.
  Lemma good_ints : forall n p, sendable N (S n) (ints p).
  Proof.
    intros n p. apply good_map.
    - cbn. constructor; [intros [H|[]]; discriminate H|]. constructor; [intros []|constructor].
    - repeat constructor; cbn; try (apply clean_small; reflexivity).
  Qed.
  Lemma good_seq : forall {A} n (f : A -> val) l, (forall a, In a l -> sendable N n (f a)) -> sendable N (S n) (VSeq (map f l)).
  Proof. intros A n f l H. constructor. intros v I. apply in_map_iff in I. destruct I as (a & <- & I). apply H. exact I. Qed.
  Lemma good_placed : forall h n e, sendable N (S h) (VMap (snd e)) ->
    fits N (fst (fst e)) -> Qred (fst (fst e)) = fst (fst e) -> fits N (snd (fst e)) -> Qred (snd (fst e)) = snd (fst e) ->
    sendable N (S (S h)) (VMap (placed (0, 0)%Z n e)).
  Proof.
    intros h n e B F1 R1 F2 R2. rewrite placed_simple. inversion B as [| | | | | |? ? ND K V]; subst. apply good_map.
    - apply set_nodup, set_nodup. exact ND.
    - apply good_set; [apply good_set|].
      + apply Forall_forall. intros [k v] I. split; [exact (K k v I)|]. apply (more N h); [exact (V k v I)|lia].
      + split; [apply clean_small; reflexivity|]. unfold at_place. cbn [fst snd]. rewrite !minus_zero. apply good_map.
        * cbn. constructor; [intros [H|[]]; discriminate H|]. constructor; [intros []|constructor].
        * constructor; [split; [apply clean_small; reflexivity|constructor; assumption]|].
          constructor; [split; [apply clean_small; reflexivity|constructor; assumption]|constructor].
      + split; [apply clean_small; reflexivity|constructor].
  Qed.
  Lemma placed_in : forall o l n d, In d (placed_all o n l) -> exists m e, In e l /\ d = placed o m e.
  Proof.
    intros o. induction l as [|e l IH]; intros n d I; [destruct I|]. destruct I as [<-|I]; [exists n, e; split; [left|]; reflexivity|].
    destruct (IH _ _ I) as (m & e' & I' & E). exists m, e'. split; [right|]; assumption.
  Qed.
  Lemma fits_red : forall q, fits N q -> fits N (Qred q).
  Proof. intros q F. unfold fits in *. rewrite (one_number N X (Qred q) q (Qred_correct q)), F. symmetry. apply Qred_correct. Qed.
  Lemma good_doc : forall h en ed b x, sendable_sheet N h b -> List.length (x_scheds x) = List.length (b_scheds b) ->
    sendable N (h + 5) (VMap (doc_of en ed (settled b) x)).
  Proof.
    intros h en ed b x [V ST T SC P] LE. replace (h + 5)%nat with (S (S (S (S (S h))))) by lia.
    assert (V' : forall v, In v [b_label b; b_color b; b_description b; b_icons b; b_version b; b_index b] -> forall m, sendable N (m + h) v)
      by (intros v I m; apply (more N h); [apply V; exact I|lia]).
    assert (C : forall s, forallb (fun c => N.ltb c 55296) (str s) = true -> clean (str s)) by (intros; apply clean_small; assumption).
    apply good_map.
    - unfold doc_of, field. destruct (_ || _); cbn; [constructor; [intros []|constructor]|].
      constructor; [intros [H|[]]; discriminate H|]. constructor; [intros []|constructor].
    - unfold doc_of. constructor.
      + split; [apply clean_small; reflexivity|]. cbn [snd]. unfold body_of.
        apply good_map; [apply assemble_nodup; apply dump_nodup|]. unfold assemble. do 4 apply good_drop_empty. do 2 apply good_drop_zero.
        apply good_set; [apply good_set; [apply good_set; [apply good_set|]|]|];
          [|split; [apply clean_small; reflexivity|cbn [snd]]..].
        * unfold dump. cbn [settled b_label b_color b_description b_icons b_version b_size b_absolute b_relative b_stock].
          assert (F : forall k dv v, clean k -> In v [b_label b; b_color b; b_description b; b_icons b; b_version b; b_index b] ->
            Forall (goodp (S (S (S h)))) (field en ed k dv v)) by (intros; apply good_field; [assumption|apply (V' v ltac:(assumption) 3%nat)]).
          assert (E : forall k, clean k -> Forall (goodp (S (S (S h)))) (field en ed k (VSeq []) (VSeq [])))
            by (intros; apply good_field; [assumption|constructor; intros v []]).
          assert (O : forall k v, clean k -> sendable N (S (S (S h))) v -> Forall (goodp (S (S (S h)))) [(k, v)])
            by (intros; constructor; [split; assumption|constructor]).
          apply Forall_app; split. { apply O; [apply clean_small; reflexivity|]. constructor. apply clean_small; reflexivity. }
          apply Forall_app; split. { apply F; [apply clean_small; reflexivity|]. cbn; tauto. }
          apply Forall_app; split. { apply F; [apply clean_small; reflexivity|]. cbn; tauto. }
          apply Forall_app; split. { apply F; [apply clean_small; reflexivity|]. cbn; tauto. }
          apply Forall_app; split. { apply F; [apply clean_small; reflexivity|]. cbn; tauto. }
          apply Forall_app; split. { apply F; [apply clean_small; reflexivity|]. cbn; tauto. }
          apply Forall_app; split. { apply O; [apply clean_small; reflexivity|]. apply good_ints. }
          apply Forall_app; split. { apply good_field; [apply clean_small; reflexivity|]. destruct (b_absolute b); constructor. }
          apply Forall_app; split. { apply O; [apply clean_small; reflexivity|]. apply good_ints. }
          apply Forall_app; split. { apply E. apply clean_small; reflexivity. }
          apply Forall_app; split. { apply E. apply clean_small; reflexivity. }
          apply Forall_app; split. { apply E. apply clean_small; reflexivity. }
          apply Forall_app; split. { apply E. apply clean_small; reflexivity. }
          apply good_field; [apply clean_small; reflexivity|]. constructor. intros v I. apply (more N h); [apply ST; exact I|lia].
        * apply good_seq. intros d I. apply placed_in in I. destruct I as (m & e & I & ->). rewrite settled_flat in I.
          apply in_map_iff in I. destruct I as (e0 & <- & I). destruct (P _ e0 (flat_parts_spread (b_parts b)) I) as (B & F1 & F2).
          cbn [settled b_origin]. apply good_placed; cbn [fst snd]; try (apply Qred_complete, Qred_correct); try (apply fits_red; assumption). exact B.
        * apply good_seq. intros d I. apply in_map_iff in I. destruct I as (t & <- & I). cbn [settled b_tiles b_origin] in I.
          apply in_map_iff in I. destruct I as (t0 & <- & I). apply good_map.
          -- cbn. constructor; [intros [H|[]]; discriminate H|]. constructor; [intros []|constructor].
          -- constructor; [split; [apply clean_small; reflexivity|]|constructor; [split; [apply clean_small; reflexivity|apply good_ints]|constructor]].
             cbn. apply (more N h); [apply T; exact I|lia].
        * unfold sched_vals. apply good_seq. intros [ns s] I. cbn [fst snd]. apply in_combine_r in I. cbn [settled b_scheds] in I.
          destruct (SC s I) as (NI & S). inversion S as [| | | | | |? ? ND K W]; subst. unfold sched_dict. apply good_map.
          -- cbn. constructor; assumption.
          -- constructor; [split; [apply clean_small; reflexivity|]|].
             ++ cbn. apply good_seq. intros z _. constructor.
             ++ apply Forall_forall. intros [k v] J. split; [exact (K k v J)|]. apply (more N h); [exact (W k v J)|lia].
        * apply good_seq. intros [[[a s] c] t] _. cbn. constructor. intros v [<-|[<-|[<-|[<-|[]]]]]; constructor.
      + apply good_field; [apply clean_small; reflexivity|]. apply (V' (b_index b) ltac:(cbn; tauto) 4%nat).
  Qed.
End Docs.
