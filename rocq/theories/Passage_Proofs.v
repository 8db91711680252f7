(** Proofs about blueprints sent as strings. *)
From Coq Require Import ZArith NArith QArith String List Bool Lia.
From Verif Require Import Common Dict Codec_Model Codec_Spec Codec_Proofs Trim_Model Trim_Proofs Wires_Model Wires_Spec Wires_Proofs
  Wires_Export_Proofs Wires_More_Proofs Document_Model Document_Spec Document_Proofs Document_Claims_Proofs Document_Read_Proofs
  Passage_Model Passage_Spec.
Import ListNotations.
Local Open Scope string_scope.
Local Open Scope list_scope.

(** ** Texts *)
Lemma clean_small : forall s, forallb (fun c => N.ltb c 55296) s = true -> clean s.
Proof.
  intros s H. rewrite forallb_forall in H. split.
  - apply Forall_forall. intros c I. specialize (H c I). apply N.ltb_lt in H. lia.
  - intros s1 u w s2 -> [Hu _]. assert (I : In u (s1 ++ u :: w :: s2)) by (apply in_or_app; right; left; reflexivity).
    specialize (H u I). apply N.ltb_lt in H. lia.
Qed.

Section Send.
  Context {L : lib}.
  Variable N : numbers L.
  Notation to_json := (to_json L N).
  Notation of_json := (of_json L N).

  (** ** Values *)
  Lemma more : forall n v, sendable N n v -> forall m, (n <= m)%nat -> sendable N m v.
  Proof.
    intros n v H. induction H; intros m Hm; try (constructor; assumption).
    - destruct m as [|m]; [lia|]. constructor. intros v I. apply H0; [exact I|lia].
    - destruct m as [|m]; [lia|]. constructor; [assumption|assumption|]. intros k v I. eapply H2; [exact I|lia].
  Qed.
  Lemma seq_json : forall l, to_json (VSeq l) = let* js := mapM to_json l in Ok (JList js).
  Proof.
    intro l. cbn [Passage_Model.to_json]. f_equal. induction l as [|v l IH]; [reflexivity|]. cbn [mapM].
    destruct (to_json v); [|reflexivity]. cbn [bind]. rewrite IH. reflexivity.
  Qed.
  Definition pair_json (p : pystr * val) : result (pystr * json (flt L)) := let* j := to_json (snd p) in Ok (fst p, j).
  Lemma map_json : forall d, to_json (VMap d) = let* js := mapM pair_json d in Ok (JObj js).
  Proof.
    intro d. cbn [Passage_Model.to_json]. f_equal. induction d as [|[k v] d IH]; [reflexivity|]. cbn [mapM]. unfold pair_json at 1. cbn [fst snd].
    destruct (to_json v); [|reflexivity]. cbn [bind]. rewrite IH. reflexivity.
  Qed.
  Definition sent (n : nat) (v : val) : Prop :=
    exists j, to_json v = Ok j /\ of_json j = Some v /\ Codec_Spec.valid j /\ all_clean j /\ (Codec_Spec.depth j <= n)%nat.
  Lemma send : exact_numbers N -> forall n v, sendable N n v -> sent n v.
  Proof.
    intros X n v H. induction H as [n|n b|n z|n q F R|n s C|n l S IH|n d ND K S IH];
      try solve [eexists; split; [reflexivity|]; split; [reflexivity|]; split; [constructor|split; [constructor|cbn; lia]]].
    - eexists; split; [reflexivity|]. split; [|split; [constructor|split; [constructor|cbn; lia]]]. cbn.
      f_equal. f_equal. rewrite <- (lowest N X), <- R. apply Qred_complete. unfold fits in F. rewrite R. exact F.
    - eexists; split; [reflexivity|]. split; [reflexivity|]. split; [constructor; apply C|split; [constructor; exact C|cbn; lia]].
    - assert (E : exists js, mapM to_json l = Ok js /\ of_json (JList js) = Some (VSeq l) /\
        (forall j, In j js -> Codec_Spec.valid j /\ all_clean j /\ (Codec_Spec.depth j <= n)%nat)).
      { clear S. induction l as [|v l IHl]; [exists []; split; [reflexivity|split; [reflexivity|intros j []]]|].
        destruct (IH v (or_introl eq_refl)) as (j & T & O & V & C & D).
        destruct IHl as (js & TS & OS & A); [intros w I; apply IH; right; exact I|].
        exists (j :: js). cbn [mapM]. rewrite T. cbn [bind]. rewrite TS. split; [reflexivity|]. split.
        - cbn [Passage_Model.of_json] in *. rewrite O. destruct ((fix go l := match l with [] => _ | _ => _ end) js); [|discriminate].
          cbn in *. congruence.
        - intros i [<-|I]; [auto|apply A; exact I]. }
      destruct E as (js & T & O & A). exists (JList js). rewrite seq_json, T. split; [reflexivity|]. split; [exact O|].
      split; [constructor; intros j I; apply A; exact I|]. split; [constructor; intros j I; apply A; exact I|].
      cbn [Codec_Spec.depth]. apply le_n_S. clear -A. induction js as [|j js IHj]; cbn; [lia|].
      pose proof (A j (or_introl eq_refl)). assert (fold_right Nat.max 0 (map Codec_Spec.depth js) <= n)%nat by (apply IHj; intros i I; apply A; right; exact I). lia.
    - assert (E : exists js, mapM pair_json d = Ok js /\ of_json (JObj js) = Some (VMap d) /\ map fst js = map fst d /\
        (forall k j, In (k, j) js -> clean k /\ Codec_Spec.valid j /\ all_clean j /\ (Codec_Spec.depth j <= n)%nat)).
      { clear S ND. induction d as [|[k v] d IHl]; [exists []; split; [reflexivity|split; [reflexivity|split; [reflexivity|intros k j []]]]|].
        destruct (IH k v (or_introl eq_refl)) as (j & T & O & V & C & D).
        destruct IHl as (js & TS & OS & F & A); [intros k' w I; eapply K; right; exact I|intros k' w I; eapply IH; right; exact I|].
        exists ((k, j) :: js). cbn [mapM]. unfold pair_json at 1. cbn [fst snd]. rewrite T. cbn [bind]. rewrite TS. split; [reflexivity|]. split; [|split].
        - cbn [Passage_Model.of_json] in *. rewrite O. destruct ((fix go l := match l with [] => _ | _ => _ end) js); [|discriminate].
          cbn in *. congruence.
        - cbn. f_equal. exact F.
        - intros k' i [I|I]; [injection I as <- <-; split; [apply (K k v); left; reflexivity|auto]|apply A; exact I]. }
      destruct E as (js & T & O & F & A). exists (JObj js). rewrite map_json, T. split; [reflexivity|]. split; [exact O|].
      split; [constructor; [rewrite F; exact ND|intros k j I; destruct (A k j I) as ([U _] & V & _); split; assumption]|].
      split; [constructor; intros k j I; destruct (A k j I) as (U & _ & V & _); split; assumption|].
      cbn [Codec_Spec.depth]. apply le_n_S. clear -A. induction js as [|[k j] js IHj]; cbn; [lia|].
      pose proof (A k j (or_introl eq_refl)). assert (fold_right Nat.max 0 (map (fun p => Codec_Spec.depth (snd p)) js) <= n)%nat by (apply IHj; intros k' i I; apply A; right; exact I). lia.
  Qed.

  (** ** Dictionaries with the same text *)
  Definition alike (K : pystr) (d d' : dict) : Prop :=
    Forall2 (fun p q => fst p = fst q /\ (snd p = snd q \/ (fst p = K /\ to_json (snd p) = to_json (snd q)))) d d'.
  Lemma alike_refl : forall K d, alike K d d.
  Proof. intros K d. induction d as [|p d IH]; constructor; auto. Qed.
  Lemma alike_json : forall K d d', alike K d d' -> to_json (VMap d) = to_json (VMap d').
  Proof.
    intros K d d' H. rewrite !map_json. f_equal. induction H as [|[k v] [k' v'] d d' [E V] H IH]; [reflexivity|]. cbn [fst snd] in *. subst k'.
    cbn [mapM]. rewrite IH. unfold pair_json. cbn [fst snd]. destruct V as [->|[_ ->]]; reflexivity.
  Qed.
  Lemma alike_set : forall K d d' k v v', alike K d d' -> (v = v' \/ (k = K /\ to_json v = to_json v')) -> alike K (set d k v) (set d' k v').
  Proof.
    intros K d d' k v v' H V. unfold set. induction H as [|[a x] [a' x'] d d' [E X] H IH]; cbn [fst snd] in *.
    - cbn. constructor; [cbn; auto|constructor].
    - subst a'. cbn. destruct (pystr_eqb a k) eqn:Q.
      + apply pystr_eqb_eq in Q. subst a. constructor; [cbn; auto|exact H].
      + constructor; [cbn; auto|exact IH].
  Qed.
  Lemma alike_del : forall K d d' k, alike K d d' -> alike K (del d k) (del d' k).
  Proof.
    intros K d d' k H. unfold del. induction H as [|[a x] [a' x'] d d' [E X] H IH]; cbn [fst snd] in *; [constructor|].
    subst a'. cbn. destruct (pystr_eqb a k); cbn; [exact H|]. constructor; [cbn; auto|exact IH].
  Qed.
End Send.
