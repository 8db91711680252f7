(** Proofs of the claims about blueprints as strings. *)
From Coq Require Import ZArith NArith QArith String List Bool Lia.
From Verif Require Import Common Dict Codec_Model Codec_Spec Codec_Proofs Trim_Model Trim_Proofs Wires_Model Wires_Spec Wires_Proofs
  Wires_Export_Proofs Wires_More_Proofs Document_Model Document_Spec Document_Proofs Document_Claims_Proofs Document_Read_Proofs
  Passage_Model Passage_Spec Passage_Proofs Passage_More_Proofs.
Import ListNotations.
Local Open Scope string_scope.
Local Open Scope list_scope.

Section Claims.
  Context {L : lib}.
  Variable N : numbers L.

  Lemma settled_kept : forall rebuild b, Forall (kept rebuild) (flat_parts (b_parts b)) -> Forall (kept rebuild) (flat_parts (b_parts (settled b))).
  Proof.
    intros rebuild b H. rewrite settled_flat. apply Forall_forall. intros e I. apply in_map_iff in I. destruct I as (e0 & <- & I).
    rewrite Forall_forall in H. exact (H e0 I).
  Qed.
  Lemma settled_read : forall current en ed b x ps c ss, read_back current en ed (settled b) x ps c ss = read_back current en ed b x ps c ss.
  Proof.
    intros. unfold read_back. cbn [settled b_label b_color b_description b_icons b_version b_size b_origin b_absolute b_relative b_tiles b_scheds b_stock b_index].
    rewrite moved_again. reflexivity.
  Qed.
  Lemma forbidden : forall en ed b x, existsb (has (body_of en ed b x)) (map str ["self"; "index"; "validate"]) = false.
  Proof.
    intros en ed b x. cbn [map existsb]. unfold has, body_of. rewrite !get_assemble by apply dump_nodup. keys.
    rewrite !dump_get. keys. rewrite !get_field. keys. reflexivity.
  Qed.
  Definition settles (o : Z * Z) (e e' : Q * Q * dict) : Prop :=
    (fst (fst e) - inject_Z (fst o) == fst (fst e'))%Q /\ (snd (fst e) - inject_Z (snd o) == snd (fst e'))%Q /\ snd e' = snd e.
  Lemma settled_settles : forall b, Forall2 (settles (b_origin b)) (flat_parts (b_parts b)) (flat_parts (b_parts (settled b))).
  Proof.
    intro b. rewrite settled_flat. induction (flat_parts (b_parts b)) as [|e l IH]; constructor; [|exact IH].
    unfold settles. cbn [fst snd]. split; [symmetry; apply Qred_correct|]. split; [symmetry; apply Qred_correct|reflexivity].
  Qed.
  Lemma same_parts : forall o l i ps, reread_all o i l ps -> forall l' ps', Forall2 (settles o) l l' ->
    reread_all (0, 0)%Z i l' ps' -> Forall2 same_part ps ps'.
  Proof.
    intros o l i ps H. induction H as [|i e p l ps (body & -> & S) H IH]; intros l' ps' F H'.
    - inversion F; subst. inversion H'; subst. constructor.
    - inversion F as [|? e' ? k' (EX & EY & ES) F']; subst. inversion H' as [|? ? p' ? qs (body' & E & S') T]; subst. constructor; [|exact (IH _ _ F' T)].
      do 7 eexists. split; [reflexivity|]. split; [reflexivity|]. cbn [fst snd]. rewrite !minus_zero.
      split; [exact EX|]. split; [exact EY|]. intro v. rewrite S, S', ES. reflexivity.
  Qed.

  Section Read.
    Variables (rebuild : dict -> result dict) (current : val) (base : nat).

    (** Everything about sending one blueprint. *)
    Lemma passage : faithful L -> exact_numbers N -> forall veq h b doc, readable rebuild b -> sendable_sheet N h b ->
      (h + 5 <= dump_limit L)%nat -> (h + 5 <= load_limit L)%nat -> to_dict veq true true b = Ok doc ->
      exists j s b1 b', to_json L N (VMap doc) = Ok j /\ JSON_to_string L j = Ok (48%N :: s) /\
        from_dict rebuild current base doc = Ok b1 /\ same_sheet b1 b' /\
        forall c, load_from_string L N rebuild current base (c :: s) = Ok b' /\
          get_blueprintable_from_string L N rebuild current base (c :: s) = Ok (Opened b').
    Proof.
      intros FL X veq h b doc K SB D1 D2 TD.
      destruct (read_written rebuild current base veq true true b doc K TD) as (x & ps & c & ss & E & -> & RA & I & F).
      destruct (exported_valid veq b x E) as (_ & _ & _ & LE).
      destruct (send N X _ _ (good_doc N X h true true b x SB LE)) as (j & TJ & OJ & V & C & D).
      destruct (Codec_Proofs.roundtrip L FL j V C) as (s & JS & SJ); [lia|lia|].
      destruct (from_dict_of rebuild current base true true (settled b) x (settled_kept _ _ (readable_kept _ _ K)) LE) as (ps' & RA' & F').
      rewrite (reread_shape _ _ _ _ RA') in F'. rewrite settled_flat, map_length in F'. rewrite I in F'. rewrite settled_read in F'.
      assert (SET : setup rebuild current base (doc_of true true (settled b) x) = Ok (read_back current true true b x ps' c ss)).
      { unfold setup, item. unfold doc_of at 1. rewrite get_cons. keys. cbn [bind as_map]. rewrite forbidden. exact F'. }
      assert (MEM : member (str "blueprint") (VMap (doc_of true true (settled b) x)) = Ok true).
      { unfold member, has, doc_of. rewrite get_cons. keys. reflexivity. }
      exists j, s, (read_back current true true b x ps c ss), (read_back current true true b x ps' c ss).
      split; [rewrite (settled_alike N X); exact TJ|]. split; [exact JS|]. split; [exact F|]. split.
      - unfold same_sheet, read_back. cbn [b_label b_color b_description b_icons b_version b_size b_origin b_absolute b_relative b_parts b_ids b_tiles b_scheds b_wires b_stock b_index].
        repeat (split; [reflexivity|]). split; [|repeat split; reflexivity].
        exact (same_parts _ _ _ _ RA _ _ (settled_settles b) RA').
      - intro ch. unfold load_from_string, get_blueprintable_from_string, parse. rewrite SJ. cbn [bind]. rewrite OJ. cbn [bind].
        rewrite MEM. cbn [bind blueprint_of]. rewrite SET. cbn [bind]. split; reflexivity.
    Qed.

    Lemma same_read : forall en ed b b1 b', read_as en ed current base b b1 -> same_sheet b1 b' -> read_as en ed current base b b'.
    Proof.
      intros en ed b b1 b' (A1 & A2 & A3 & A4 & A5 & A6 & A7 & A8 & A9 & (l & SP & ER) & A11 & A12 & A13 & A14)
        (B1 & B2 & B3 & B4 & B5 & B6 & B7 & B8 & B9 & B10 & _ & B11 & B12 & _ & B13 & B14).
      unfold read_as. rewrite B1, B2, B3, B4, B5, B6, B7, B8, B9, B11, B12, B13, B14.
      repeat (split; [assumption|]). split; [|repeat split; assumption].
      exists l. split; [exact SP|]. clear -ER B10. revert B10. generalize (b_parts b'). induction ER as [|i e p l ps E ER IH]; intros qs B;
        inversion B as [|? q ? qs' S T]; subst; constructor; [|apply IH; exact T].
      destruct S as (i0 & x & y & d & x' & y' & d' & -> & -> & EX & EY & SD). destruct E as (x0 & y0 & d0 & E & HX & HY & HD). injection E as <- <- <- <-.
      do 3 eexists. split; [reflexivity|]. rewrite <- EX, <- EY. split; [exact HX|]. split; [exact HY|]. intros k NE. rewrite <- (HD k NE).
      pose proof (f_equal (fun m => get m k) (SD VNone)) as G. cbn beta in G. rewrite !get_set in G.
      destruct (pystr_eqb (str "position") k) eqn:Q; [apply pystr_eqb_eq in Q; congruence|symmetry; exact G].
    Qed.
    Lemma sent_back : faithful L -> exact_numbers N -> forall veq h b doc, readable rebuild b -> sendable_sheet N h b ->
      (h + 5 <= dump_limit L)%nat -> (h + 5 <= load_limit L)%nat -> to_dict veq true true b = Ok doc ->
      exists s b1 b', to_string L N veq b = Ok (48%N :: s) /\
        (forall c, load_from_string L N rebuild current base (c :: s) = Ok b' /\
           get_blueprintable_from_string L N rebuild current base (c :: s) = Ok (Opened b')) /\
        read_as true true current base b b' /\ from_dict rebuild current base doc = Ok b1 /\ same_sheet b1 b'.
    Proof.
      intros FL X veq h b doc K SB D1 D2 TD.
      destruct (passage FL X veq h b doc K SB D1 D2 TD) as (j & s & b1 & b' & TJ & JS & F & S & R).
      exists s, b1, b'. split; [unfold to_string; rewrite TD; cbn [bind]; rewrite TJ; exact JS|]. split; [exact R|].
      split; [|split; assumption]. destruct (round_trip rebuild current base veq true true b doc K TD) as (b2 & F2 & RA).
      rewrite F in F2. injection F2 as <-. exact (same_read _ _ _ _ _ RA S).
    Qed.

    (** ** Written again *)
    Lemma same_shapes : forall ps qs, Forall2 same_part ps qs -> map Document_Model.shape ps = map Document_Model.shape qs.
    Proof.
      intros ps qs H. induction H as [|p q ps qs (i & x & y & d & x' & y' & d' & -> & -> & _) H IH]; [reflexivity|]. cbn. f_equal. exact IH.
    Qed.
    Lemma same_flat : forall o ps qs, Forall2 same_part ps qs -> Forall2 (same_place o o) (flat_parts ps) (flat_parts qs).
    Proof.
      intros o ps qs H. induction H as [|p q ps qs (i & x & y & d & x' & y' & d' & -> & -> & EX & EY & S) H IH]; [constructor|].
      cbn. constructor; [|exact IH]. unfold same_place. cbn [fst snd]. rewrite EX, EY. split; [reflexivity|]. split; [reflexivity|exact S].
    Qed.
    Lemma same_text : exact_numbers N -> forall veq b b', same_sheet b b' -> to_string L N veq b' = to_string L N veq b.
    Proof.
      intros X veq b b' (B1 & B2 & B3 & B4 & B5 & B6 & B7 & B8 & B9 & B10 & BI & B11 & B12 & BW & B13 & B14).
      unfold to_string. rewrite !to_dict_of. unfold exported_of, coll_of. rewrite B12, BI, BW, <- (same_shapes _ _ B10).
      destruct (export _ _ _) as [x|e]; [|reflexivity]. cbn [bind]. rewrite (docs_alike N X true true b' b x); [reflexivity| | | | |].
      - unfold dump. rewrite B1, B2, B3, B4, B5, B6, B8, B9, B13. reflexivity.
      - rewrite B7. apply same_flat. clear -B10. induction B10 as [|p q ps qs (i & x & y & d & x' & y' & d' & -> & -> & EX & EY & S) H IH]; constructor; [|exact IH].
        do 7 eexists. split; [reflexivity|]. split; [reflexivity|]. split; [symmetry; exact EX|]. split; [symmetry; exact EY|]. intro v. symmetry. apply S.
      - rewrite B7, B11. reflexivity.
      - unfold sched_vals. rewrite B12. reflexivity.
      - exact B14.
    Qed.
    Lemma sent_again : faithful L -> exact_numbers N -> forall veq veq' h b l, readable rebuild b -> sendable_sheet N h b ->
      (h + 5 <= dump_limit L)%nat -> (h + 5 <= load_limit L)%nat ->
      spread 0 0 (b_parts b) l -> distinct veq' (seq base (List.length l)) -> b_version b <> VNone ->
      forall s b', to_string L N veq b = Ok s -> load_from_string L N rebuild current base s = Ok b' -> to_string L N veq' b' = Ok s.
    Proof.
      intros FL X veq veq' h b l K SB D1 D2 SP DI VN s b' TS LD.
      destruct (to_dict veq true true b) as [doc|e] eqn:TD; [|unfold to_string in TS; rewrite TD in TS; discriminate].
      destruct (sent_back FL X veq h b doc K SB D1 D2 TD) as (s' & b1 & b2 & TS' & R & _ & F & S).
      rewrite TS' in TS. injection TS as <-. destruct (R 48%N) as [R1 _]. rewrite R1 in LD. injection LD as <-.
      rewrite (same_text X veq' b1 b2 S). eapply eq_trans; [|exact TS']. unfold to_string.
      rewrite (write_again rebuild current base veq veq' true true b doc l b1 K TD F SP DI (or_introl VN) (or_intror (or_intror eq_refl))).
      rewrite TD. reflexivity.
    Qed.

    (** ** Other strings *)
    Lemma no_string : forall s, (forall j, ~ encodes L s j) ->
      load_from_string L N rebuild current base s = Err MalformedBlueprintStringError /\
      get_blueprintable_from_string L N rebuild current base s = Err MalformedBlueprintStringError.
    Proof.
      intros s H. assert (M : string_to_JSON L s = Err MalformedBlueprintStringError) by (apply malformed_iff; intros (j & E); exact (H j E)).
      unfold load_from_string, get_blueprintable_from_string, parse. rewrite M. split; reflexivity.
    Qed.
    Lemma has_in : forall {A} (d : list (pystr * A)) k, has d k = true <-> In k (map fst d).
    Proof.
      intros A d k. unfold has, get. induction d as [|[a v] d IH]; cbn; [split; [discriminate|intros []]|].
      destruct (pystr_eqb a k) eqn:E.
      - apply pystr_eqb_eq in E. split; [intros _; left; exact E|reflexivity].
      - rewrite IH. split; [right; assumption|]. intros [->|I]; [rewrite pystr_eqb_refl in E; discriminate|exact I].
    Qed.
    Lemma agree : forall s d, parse L N s = Ok (VMap d) -> In (str "blueprint") (map fst d) ->
      get_blueprintable_from_string L N rebuild current base s =
      match load_from_string L N rebuild current base s with Ok b => Ok (Opened b) | Err e => Err e end.
    Proof.
      intros s d P I. unfold get_blueprintable_from_string, load_from_string. rewrite P. cbn [bind member].
      rewrite (proj2 (has_in d _) I). cbn [bind blueprint_of]. destruct (setup _ _ _ _); reflexivity.
    Qed.
    Lemma wrong_kind : forall s d, parse L N s = Ok (VMap d) -> ~ In (str "blueprint") (map fst d) -> d <> [] ->
      load_from_string L N rebuild current base s = Err IncorrectBlueprintTypeError.
    Proof.
      intros s d P I NE. unfold load_from_string. rewrite P. cbn [bind member].
      destruct (has d (str "blueprint")) eqn:H; [apply has_in in H; contradiction|]. destruct d; [contradiction|reflexivity].
    Qed.
    Definition kinds : list pystr := map str ["blueprint"; "deconstruction_planner"; "upgrade_planner"; "blueprint_book"].
    Lemma told_apart : forall s d, parse L N s = Ok (VMap d) -> ~ In (str "blueprint") (map fst d) -> d <> [] ->
      (forall k, In k (map fst d) -> In k kinds -> (forall k', In k' (map fst d) -> In k' kinds -> k' = k) ->
         get_blueprintable_from_string L N rebuild current base s = Ok (Planner k (VMap d))) /\
      ((forall k, In k (map fst d) -> ~ In k kinds) -> get_blueprintable_from_string L N rebuild current base s = Err IncorrectBlueprintTypeError).
    Proof.
      intros s d P I NE. assert (H : forall k, has d k = false \/ In k (map fst d)).
      { intro k. destruct (has d k) eqn:E; [right; apply has_in; exact E|left; reflexivity]. }
      unfold get_blueprintable_from_string. rewrite P. cbn [bind member].
      destruct (H (str "blueprint")) as [E0|J]; [|contradiction]. rewrite E0. cbn [bind]. split.
      - intros k Ik Kk U.
        assert (O : forall k', In k' kinds -> k' <> k -> has d k' = false).
        { intros k' K' NK. destruct (H k') as [E|J]; [exact E|]. exfalso. exact (NK (U k' J K')). }
        pose proof (proj2 (has_in d k) Ik) as HK.
        destruct Kk as [<-|[<-|[<-|[<-|[]]]]]; [contradiction| | |].
        + rewrite HK. reflexivity.
        + rewrite (O (str "deconstruction_planner")) by (try discriminate; cbn; tauto). cbn [bind]. rewrite HK. reflexivity.
        + rewrite (O (str "deconstruction_planner")) by (try discriminate; cbn; tauto). cbn [bind].
          rewrite (O (str "upgrade_planner")) by (try discriminate; cbn; tauto). cbn [bind]. rewrite HK. reflexivity.
      - intro A. assert (O : forall k', In k' kinds -> has d k' = false).
        { intros k' K'. destruct (H k') as [E|J]; [exact E|]. exfalso. exact (A k' J K'). }
        rewrite (O (str "deconstruction_planner")) by (cbn; tauto). cbn [bind].
        rewrite (O (str "upgrade_planner")) by (cbn; tauto). cbn [bind]. rewrite (O (str "blueprint_book")) by (cbn; tauto). cbn [bind].
        destruct d; [contradiction|reflexivity].
    Qed.
    Lemma no_object : faithful L -> (1 <= dump_limit L)%nat -> (1 <= load_limit L)%nat ->
      (exists s, JSON_to_string L (JObj []) = Ok s /\ encodes L s (JObj []) /\ load_from_string L N rebuild current base s = Err StopIteration /\
         get_blueprintable_from_string L N rebuild current base s = Err IndexError) /\
      (forall z, exists s, JSON_to_string L (JInt z) = Ok s /\ load_from_string L N rebuild current base s = Err TypeError /\
         get_blueprintable_from_string L N rebuild current base s = Err TypeError) /\
      (exists s, JSON_to_string L (JList [JStr (str "blueprint")]) = Ok s /\ load_from_string L N rebuild current base s = Err TypeError /\
         get_blueprintable_from_string L N rebuild current base s = Err DataFormatError).
    Proof.
      intros FL D1 D2.
      assert (R : forall j, Codec_Spec.valid j -> all_clean j -> (Codec_Spec.depth j <= 1)%nat -> exists s, JSON_to_string L j = Ok (48%N :: s) /\ string_to_JSON L (48%N :: s) = Ok j).
      { intros j V C D. destruct (Codec_Proofs.roundtrip L FL j V C) as (s & E & S); [lia|lia|]. exists s. split; [exact E|apply S]. }
      split; [|split].
      - destruct (R (JObj [])) as (s & E & S); [constructor; [constructor|intros k v []]|constructor; intros k v []|cbn; lia|].
        eexists. split; [exact E|]. split; [apply (proj1 (string_to_JSON_iff L _ _)); exact S|].
        unfold load_from_string, get_blueprintable_from_string, parse. rewrite S. split; reflexivity.
      - intro z. destruct (R (JInt z)) as (s & E & S); [constructor|constructor|cbn; lia|].
        eexists. split; [exact E|]. unfold load_from_string, get_blueprintable_from_string, parse. rewrite S. split; reflexivity.
      - destruct (R (JList [JStr (str "blueprint")])) as (s & E & S).
        + constructor. intros v [<-|[]]. constructor. apply (clean_small (str "blueprint") eq_refl).
        + constructor. intros v [<-|[]]. constructor. apply clean_small. reflexivity.
        + cbn. lia.
        + eexists. split; [exact E|]. unfold load_from_string, get_blueprintable_from_string, parse. rewrite S. split; reflexivity.
    Qed.
    (** A text inside the string is taken for a string itself. *)
    Lemma twice : forall s t, parse L N s = Ok (VStr t) -> (exists a c, t = a ++ str "blueprint" ++ c) ->
      get_blueprintable_from_string L N rebuild current base s =
      match load_from_string L N rebuild current base t with Ok b => Ok (Opened b) | Err e => Err e end.
    Proof.
      intros s t P (a & c & ->). unfold get_blueprintable_from_string. rewrite P. cbn [bind member].
      assert (B : forall p r, begins p (p ++ r) = true) by (induction p as [|x p IH]; intro r; cbn; [reflexivity|rewrite N.eqb_refl; apply IH]).
      assert (W : within (str "blueprint") (a ++ str "blueprint" ++ c) = true).
      { assert (W0 : forall p q, begins p q = true -> within p q = true) by (intros p q H; destruct q; cbn [within]; rewrite H; reflexivity).
        clear -B W0. induction a as [|x a IH]; [apply W0; apply (B (str "blueprint") c)|]. cbn [app within]. rewrite IH. apply orb_true_r. }
      rewrite W. cbn [bind blueprint_of]. destruct (load_from_string _ _ _ _ _ _); reflexivity.
    Qed.
  End Read.
End Claims.
