(** C60: instruments of programmable speakers. *)
From Coq Require Import ZArith List Bool String.
From Verif Require Import Common Dict Tune_Model Tune_Spec Tune_Proofs.
Import ListNotations.
Local Open Scope string_scope.
Local Open Scope list_scope.
Local Open Scope Z_scope.

(** The tables made from the game's data agree exactly when no instrument and no
    note of an instrument comes twice and no note is called "self". *)
Theorem C60_extract : forall l, t_raw (extract l) = l /\ (agree (extract l) <-> sound_instruments l).
Proof. intros l. split; [exact (extract_raw l)|exact (extract_iff l)]. Qed.
Print Assumptions C60_extract.

(** Adding: what is changed, when the tables still agree, and when it fails. *)
Theorem C60_add : forall speakers r n ns index e,
  match add_instrument speakers r n ns index e with
  | Ok r' => In e speakers /\ (forall e', e' <> e -> dget pystr_eqb r' e' = dget pystr_eqb r e') /\
      exists t t', dget pystr_eqb r e = Some t /\ dget pystr_eqb r' e = Some t' /\ put_in t index (n, ns) t' /\
        (agree t -> (agree t' <-> the_end t index /\ ~ In n (map fst (t_raw t)) /\ sound_notes ns))
  | Err x => (x = TypeError /\ ~ In e speakers) \/ (x = KeyError /\ In e speakers /\ dget pystr_eqb r e = None)
  end.
Proof. exact add_spec. Qed.
Print Assumptions C60_add.

(** Any number of new instruments. *)
Theorem C60_add_all : forall speakers e l r t, In e speakers -> dget pystr_eqb r e = Some t -> agree t ->
  sound_instruments (t_raw t ++ l) ->
  exists r' t', add_all speakers r e l = Ok r' /\ dget pystr_eqb r' e = Some t' /\ agree t' /\ t_raw t' = t_raw t ++ l.
Proof. exact add_all_spec. Qed.
Print Assumptions C60_add_all.

(** Names of instruments are read back as set; the note is left alone. *)
Theorem C60_instrument : forall r s t n, dget pystr_eqb r (sp_name s) = Some t -> agree t ->
  let s' := set_instrument_name r s (Some n) in
  sp_note s' = sp_note s /\ sp_name s' = sp_name s /\
  (forall k ns, at_place (t_raw t) k (n, ns) -> sp_instrument s' = Some k /\ get_instrument_name r s' = Some n).
Proof. exact instrument_spec. Qed.
Print Assumptions C60_instrument.

(** The name read is that of the instrument with the speaker's number. *)
Theorem C60_instrument_read : forall r s t n, dget pystr_eqb r (sp_name s) = Some t -> agree t ->
  (get_instrument_name r s = Some n <-> exists k ns, sp_instrument s = Some k /\ at_place (t_raw t) k (n, ns)).
Proof. exact instrument_read. Qed.
Print Assumptions C60_instrument_read.
(** The note read is the one at the speaker's place among the notes of that
    instrument; there is none at negative places. *)
Theorem C60_note_read : forall r s t m, dget pystr_eqb r (sp_name s) = Some t -> agree t ->
  (get_note_name r s = Some m <-> exists k n ns j, sp_instrument s = Some k /\ sp_note s = Some j /\ at_place (t_raw t) k (n, ns) /\ at_place ns j m).
Proof. exact note_read. Qed.
Print Assumptions C60_note_read.

(** Names of notes are read back as set, and those the instrument has not got are refused. *)
Theorem C60_note : forall r s t k n ns m, dget pystr_eqb r (sp_name s) = Some t -> agree t ->
  sp_instrument s = Some k -> at_place (t_raw t) k (n, ns) -> m <> str "self" ->
  let s' := set_note_name r s (Some m) in
  sp_instrument s' = sp_instrument s /\
  (forall j, at_place ns j m -> sp_note s' = Some j /\ get_note_name r s' = Some m) /\
  (~ In m ns -> sp_note s' = None /\ get_note_name r s' = None).
Proof. exact note_spec. Qed.
Print Assumptions C60_note.

(** Without a known instrument every note name gives no note. *)
Theorem C60_no_instrument : forall r s v, get_instrument_name r s = None -> sp_note (set_note_name r s v) = None.
Proof. exact unheard. Qed.
Print Assumptions C60_no_instrument.

(** A note called "self" is always known: it gives the number of the instrument. *)
Theorem C60_note_self : forall r s t k n ns, dget pystr_eqb r (sp_name s) = Some t -> agree t ->
  sp_instrument s = Some k -> at_place (t_raw t) k (n, ns) ->
  sp_note (set_note_name r s (Some (str "self"))) = Some k.
Proof. exact note_self. Qed.
Print Assumptions C60_note_self.

(** An instrument added before others takes the number of one of them, which can then not be chosen. *)
Theorem C60_displaced : forall speakers r r' t n ns i s m ms, add_instrument speakers r n ns (Some i) (sp_name s) = Ok r' ->
  dget pystr_eqb r (sp_name s) = Some t -> agree t -> at_place (t_raw t) i (m, ms) -> m <> n ->
  get_instrument_name r' (set_instrument_name r' s (Some m)) = Some n.
Proof. exact displaced. Qed.
Print Assumptions C60_displaced.

Definition speaker_name := str "programmable-speaker".
Definition drum := (str "drum-kit", [str "kick"; str "snare"]).
Definition piano := (str "piano", [str "F3"; str "snare"; str "G3"]).
Definition start : registry := [(speaker_name, extract [drum; piano])].

(** "Names of notes are read back as set": not after the instrument is changed, which keeps the note's number. *)
Theorem C60_change_refuted : exists r s t n, dget pystr_eqb r (sp_name s) = Some t /\ agree t /\
  get_note_name r s = Some n /\
  let s' := set_instrument_name r s (Some (str "piano")) in
  get_instrument_name r s' = Some (str "piano") /\ In n (snd piano) /\ get_note_name r s' <> Some n /\
  exists s2, get_instrument_name r s2 = Some (str "piano") /\ get_note_name r s2 <> None /\
    get_note_name r (set_instrument_name r s2 (Some (str "drum-kit"))) = None.
Proof.
  exists [(speaker_name, extract [piano; (str "drum-kit", [str "snare"; str "kick"])])],
    (mkSp speaker_name (Some 1) (Some 0)), (extract [piano; (str "drum-kit", [str "snare"; str "kick"])]), (str "snare").
  split; [reflexivity|]. split.
  - apply extract_iff. split.
    + cbn. repeat constructor; cbn; intuition discriminate.
    + repeat constructor; cbn; intuition discriminate.
  - split; [reflexivity|]. split; [reflexivity|]. split; [cbn; right; left; reflexivity|]. split; [discriminate|].
    exists (mkSp speaker_name (Some 0) (Some 2)). split; [reflexivity|]. split; [discriminate|reflexivity].
Qed.
Print Assumptions C60_change_refuted.

(** "Whatever instruments are added, the tables agree" is false in three ways. *)
Theorem C60_add_refuted : exists r t r1 r2 r3,
  dget pystr_eqb r speaker_name = Some t /\ agree t /\
  add_instrument [speaker_name] r (str "harp") [str "A"] (Some 0) speaker_name = Ok r1 /\
  get_instrument_name r1 (set_instrument_name r1 (mkSp speaker_name None None) (Some (str "drum-kit"))) = Some (str "harp") /\
  add_instrument [speaker_name] r (str "harp") [str "A"] (Some (-1)) speaker_name = Ok r2 /\
  get_instrument_name r2 (mkSp speaker_name (Some 1) None) = Some (str "piano") /\
  add_instrument [speaker_name] r (str "drum-kit") [str "A"] None speaker_name = Ok r3 /\
  get_instrument_name r3 (mkSp speaker_name (Some 0) None) = Some (str "drum-kit") /\
  sp_note (set_note_name r3 (mkSp speaker_name (Some 0) None) (Some (str "kick"))) = None.
Proof.
  exists start, (extract [drum; piano]). do 3 eexists.
  split; [reflexivity|]. split.
  - apply extract_iff. split; cbn; repeat constructor; cbn; intuition discriminate.
  - split; [reflexivity|]. split; [reflexivity|]. split; [reflexivity|]. split; [reflexivity|]. split; [reflexivity|].
    split; reflexivity.
Qed.
Print Assumptions C60_add_refuted.

(** A concrete speaker. *)
Example C60_example :
  sound_instruments [drum; piano] /\
  let s := set_instrument_name start (mkSp speaker_name None None) (Some (str "piano")) in
  s = mkSp speaker_name (Some 1) None /\
  set_note_name start s (Some (str "G3")) = mkSp speaker_name (Some 1) (Some 2) /\
  get_note_name start (set_note_name start s (Some (str "G3"))) = Some (str "G3") /\
  set_note_name start s (Some (str "kick")) = mkSp speaker_name (Some 1) None /\
  (exists r, add_instrument [speaker_name] start (str "harp") [str "A"; str "B"] None speaker_name = Ok r /\
     set_instrument_name r s (Some (str "harp")) = mkSp speaker_name (Some 2) None /\
     get_note_name r (mkSp speaker_name (Some 2) (Some 1)) = Some (str "B")) /\
  add_instrument [speaker_name] start (str "harp") [] None (str "alarm") = Err TypeError /\
  add_instrument [speaker_name; str "alarm"] start (str "harp") [] None (str "alarm") = Err KeyError.
Proof.
  split; [split; cbn; repeat constructor; cbn; intuition discriminate|].
  cbn zeta. do 4 (split; [reflexivity|]). split; [eexists; repeat split; reflexivity|]. split; reflexivity.
Qed.
