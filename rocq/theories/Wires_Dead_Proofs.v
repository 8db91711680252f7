(** Locomotives that are gone. *)
From Coq Require Import ZArith List Bool.
From Verif Require Import Common Wires_Model Wires_Spec Wires_Proofs Wires_Export_Proofs.
Import ListNotations.

Definition there (c : coll) (e : wend) : Prop := exists x, e = WRef (Some x) /\ In x (flatten (c_ents c)).
Lemma there_number : forall veq c e, there c e -> exists n, export_loco veq (flatten (c_ents c)) e = Ok n.
Proof.
  intros veq c e (x & -> & I). cbn [export_loco]. apply number_exists. apply existsb_exists. exists x. split; [exact I|].
  apply same_iff. left. reflexivity.
Qed.
Lemma there_numbers : forall veq c l, Forall (there c) l -> exists out, mapM (export_loco veq (flatten (c_ents c))) l = Ok out.
Proof.
  intros veq c l H. induction H as [|e l E H [out IH]]; [exists []; reflexivity|]. destruct (there_number veq c e E) as [n N].
  exists (n :: out). cbn [mapM]. rewrite N. cbn [bind]. rewrite IH. reflexivity.
Qed.
Lemma dead_locomotive : forall veq c ss1 pre e post ss2,
  Forall (fun locos => locos <> [] /\ Forall (there c) locos) ss1 -> Forall (there c) pre -> (e = WRef None \/ exists z, e = WInt z) ->
  export veq c (ss1 ++ (pre ++ e :: post) :: ss2) = Err TypeError.
Proof.
  intros veq c ss1 pre e post ss2 F P E. unfold export.
  assert (X : mapM (export_schedule veq (flatten (c_ents c))) (ss1 ++ (pre ++ e :: post) :: ss2) = Err TypeError); [|rewrite X; reflexivity].
  assert (Y : mapM (export_loco veq (flatten (c_ents c))) (pre ++ e :: post) = Err TypeError).
  { clear F. induction P as [|a pre A P IH]; cbn [app mapM].
    - destruct E as [->|[z ->]]; reflexivity.
    - destruct (there_number veq c a A) as [n N]. rewrite N. cbn [bind]. rewrite IH. reflexivity. }
  assert (Z : export_schedule veq (flatten (c_ents c)) (pre ++ e :: post) = Err TypeError).
  { unfold export_schedule. destruct (pre ++ e :: post) eqn:Q; [destruct pre; discriminate|exact Y]. }
  induction F as [|locos ss [NE L] F IH]; cbn [app mapM].
  - rewrite Z. reflexivity.
  - destruct (there_numbers veq c locos L) as [out O]. assert (S : export_schedule veq (flatten (c_ents c)) locos = Ok out).
    { unfold export_schedule. destruct locos; [contradiction|exact O]. }
    rewrite S. cbn [bind]. rewrite IH. reflexivity.
Qed.
