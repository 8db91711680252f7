(** Numbers for the library of the examples in Codec_Proofs, whose floats are the
    halves, and a blueprint that can be sent with them. *)
From Coq Require Qcanon.
From Coq Require Import ZArith NArith QArith Qround String List Bool Lia.
From Verif Require Import Common Dict Codec_Model Codec_Spec Codec_Proofs Trim_Model Wires_Model Wires_Spec Document_Model Document_Spec
  Document_Witness_Proofs Passage_Model Passage_Spec Passage_Proofs Passage_More_Proofs.
Import ListNotations.
Local Open Scope string_scope.
Local Open Scope list_scope.

Definition halves : numbers toy := {| to_flt := (Qfloor : Q -> flt toy); of_flt := fun z : flt toy => ((2 * z + 1) # 2)%Q |}.
Lemma halves_exact : exact_numbers halves.
Proof.
  split.
  - intro z. apply Qcanon.Qred_identity. cbn. assert (G : Z.gcd (2 * z + 1) 2 = 1%Z); [|exact G].
    rewrite Z.gcd_comm, Z.add_comm, Z.mul_comm, Z.gcd_add_mult_diag_r. reflexivity.
  - intros q r E. exact (Qfloor_comp q r E).
Qed.
Lemma belts_spread : forall l, spread 0 0 (b_parts belts) l -> exists x1 y1 x2 y2,
  l = [(x1, y1, named "transport-belt"); (x2, y2, named "locomotive")] /\ (x1 == 1 # 2)%Q /\ (y1 == 1 # 2)%Q /\ (x2 == 5 # 2)%Q /\ (y2 == 3 # 2)%Q.
Proof.
  intros l H. cbn [belts b_parts] in H.
  inversion H as [|? ? ? ? ? ? X1 Y1 ? l1 E1 E2 H1|]; subst. inversion H1 as [| |? ? ? ? ? ? ? ? ? k ? l2 HK H2]; subst. inversion H2; subst.
  inversion HK as [|? ? ? ? ? ? X2 Y2 ? l3 E3 E4 H3|]; subst. inversion H3; subst.
  exists X1, Y1, X2, Y2. split; [reflexivity|]. rewrite E1, E2, E3, E4. repeat split; reflexivity.
Qed.
Lemma half_fits : forall q z, (q == (2 * z + 1) # 2)%Q -> fits halves q.
Proof.
  intros q z E. unfold fits. rewrite (one_number halves halves_exact _ _ E). rewrite E.
  assert (F : to_flt halves ((2 * z + 1) # 2)%Q = z); [|rewrite F; reflexivity].
  change (((2 * z + 1) / 2)%Z = z). rewrite Z.mul_comm, Z.div_add_l by lia. rewrite Z.add_0_r. reflexivity.
Qed.
Lemma named_sent : forall s, clean (str s) -> sendable halves 1 (VMap (named s)).
Proof.
  intros s C. apply good_map; [constructor; [intros []|constructor]|]. constructor; [|constructor].
  split; [apply clean_small; reflexivity|constructor; exact C].
Qed.
Lemma belts_sent : sendable_sheet halves 0 belts.
Proof.
  split.
  - intros v I. cbn in I. repeat (destruct I as [<-|I]; [try constructor; apply clean_small; reflexivity|]). destruct I.
  - intros v [].
  - intros t [<-|[]]. constructor. apply clean_small. reflexivity.
  - intros s [<-|[]]. split; [intros []|]. constructor; [constructor|intros k v []|intros k v []].
  - intros l e S I. apply belts_spread in S. destruct S as (x1 & y1 & x2 & y2 & -> & E1 & E2 & E3 & E4).
    destruct I as [<-|[<-|[]]]; cbn [fst snd belts b_origin].
    + split; [apply named_sent, clean_small; reflexivity|]. split; [apply (half_fits _ (-1))|apply (half_fits _ 0)]; rewrite ?E1, ?E2; reflexivity.
    + split; [apply named_sent, clean_small; reflexivity|]. split; [apply (half_fits _ 1)|apply (half_fits _ 1)]; rewrite ?E3, ?E4; reflexivity.
Qed.
Lemma belts_readable : readable keep belts.
Proof.
  apply named_readable. intros l e S I. apply belts_spread in S. destruct S as (x1 & y1 & x2 & y2 & -> & _).
  destruct I as [<-|[<-|[]]]; reflexivity.
Qed.
