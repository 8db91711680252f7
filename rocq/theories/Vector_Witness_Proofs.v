(** Claims about vectors that fail. *)
From Coq Require Import ZArith QArith Qabs String List Bool Lia.
From Verif Require Import Common Dict Vector_Model Vector_Spec Vector_Proofs.
Import ListNotations.
Local Open Scope list_scope.
Local Open Scope Z_scope.

Lemma sharing : forall F, exists cs i j, i <> j
  /\ value (run F cs nowhere) j = Some (Int 0, Int 0)
  /\ value (run F (cs ++ [SetX i (Int 5)]) nowhere) j = Some (Int 5, Int 0).
Proof. intro F. exists [New (Int 0) (Int 0); From (Vec 0%nat) CFloat], 0%nat, 1%nat. repeat split. discriminate. Qed.
Lemma dictionaries : forall F o v, binary F o v (Dict (to_dict v)) = Err KeyError.
Proof. intros F o [a b]. reflexivity. Qed.
Lemma congruent : forall F, (fl F (inject_Z (2 ^ 53) + fl F 1) == inject_Z (2 ^ 53))%Q ->
  exists u v w a b, alike u v /\ binary F Add u w = Ok a /\ binary F Add v w = Ok b /\ ~ alike a b.
Proof.
  intros F H. exists (Int (2 ^ 53), Int 0), (Flt (inject_Z (2 ^ 53)), Int 0), (Num (Int 1)),
    (Int (2 ^ 53 + 1), Int 1), (Flt (fl F (inject_Z (2 ^ 53) + fl F (inject_Z 1))), Int 1).
  split; [split; reflexivity|]. split; [reflexivity|]. split; [reflexivity|].
  intros (A & _). cbn [fst exactly] in A. change (inject_Z 1) with 1%Q in A. rewrite H in A. discriminate A.
Qed.
Lemma through_dict : forall F, (fl F (inject_Z (2 ^ 53 + 1)) == inject_Z (2 ^ 53))%Q ->
  exists v w, convert F (A := vector) (Dict (to_dict v)) CFloat = Ok w /\ ~ alike v w.
Proof.
  intros F H. exists (Int (2 ^ 53 + 1), Int 0). eexists. split; [apply from_dict|].
  intros (A & _). cbn [fst exactly apply as_float] in A. rewrite H in A. discriminate A.
Qed.
Lemma casts : forall F, exists u v w, alike u v
  /\ convert F (A := vector) (Seq [fst u; snd u]) CInt = Ok w
  /\ (forall cs, let st := run F (cs ++ [New (fst v) (snd v); From (Vec (List.length (names (run F cs nowhere)))) CInt]) nowhere in
       value st (S (List.length (names (run F cs nowhere)))) = Some v)
  /\ ~ alike v w.
Proof.
  intro F. exists (Flt (1 # 2), Int 0), (Flt (1 # 2), Int 0), (Int 0, Int 0).
  split; [split; reflexivity|]. split; [reflexivity|]. split.
  - intros cs st. subst st. unfold run at 1. rewrite fold_left_app. cbn [fold_left]. fold (run F cs nowhere).
    set (st := run F cs nowhere). cbn [exec fst].
    assert (O : object (fresh st (Flt (1 # 2), Int 0)) (List.length (names st)) = Some (List.length (objects st))).
    { unfold object, fresh; cbn. rewrite nth_error_app2 by lia. rewrite Nat.sub_diag. reflexivity. }
    cbn [fst snd]. rewrite O. cbn [fst].
    unfold value, object, fresh; cbn [names objects].
    rewrite nth_error_app2 by (rewrite app_length; cbn; lia). rewrite app_length; cbn [List.length].
    replace (S (List.length (names st)) - (List.length (names st) + 1))%nat with 0%nat by lia. cbn [nth_error].
    rewrite nth_error_app2 by lia. rewrite Nat.sub_diag. reflexivity.
  - intros (A & _). discriminate A.
Qed.
Lemma additive : forall F, proper F -> precise F -> halves F -> exists s t u, normal s /\ normal t /\ normal u
  /\ duration u = duration s + duration t /\ from_timedelta F u <> from_timedelta F s + from_timedelta F t.
Proof.
  intros F P C H. exists (mkDelta 0 0 8000), (mkDelta 0 0 8000), (mkDelta 0 0 16000).
  assert (N : forall u, 0 <= u < 1000000 -> normal (mkDelta 0 0 u)) by (intros; split; cbn; lia).
  split; [apply N; lia|]. split; [apply N; lia|]. split; [apply N; lia|]. split; [reflexivity|].
  unfold from_timedelta; cbn [days seconds microseconds].
  rewrite !(rounding_first F _ P C H) by lia. vm_compute. discriminate.
Qed.
