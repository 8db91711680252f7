(** C87: choosing the version of the game's data, and writing what was
    extracted. *)
From Coq Require Import ZArith NArith String List Bool.
From Verif Require Import Common Version_Model Version_Spec Release_Model Release_Spec
  Release_Proofs.
Import ListNotations.
Local Open Scope Z_scope.

(** C87: asked for a version there is, whatever the number of its numbers, HEAD
    is at its tag afterwards (if HEAD was at a tag). *)
Theorem C87_selects : forall fetched refuses r tags want verbose a b c k,
  fetched r = inr tags -> r_url r = str "https://github.com/wube/factorio-data" ->
  names_differ (with_tags r tags) -> at_tag (with_tags r tags) ->
  asks want a b c -> In k tags -> t_name k = text3 a b c ->
  refuses (with_tags r tags) (text3 a b c) = None ->
  exists ev, specify fetched refuses r want verbose
             = (ev, Repo (r_url r) tags (t_commit k), Done).
Proof. exact specify_selects. Qed.
Print Assumptions C87_selects.

(** C87: HEAD is changed only to the tag that was asked for, and only if
    nothing is raised; nothing else than tags and HEAD is changed. *)
Theorem C87_only : forall fetched refuses r want verbose ev r' o,
  specify fetched refuses r want verbose = (ev, r', o) ->
  (r' = r /\ exists e, fetched r = inl e /\ o = Raised e /\ ev = []) \/
  exists tags, fetched r = inr tags /\ r_url r' = r_url r /\ r_tags r' = tags /\
    (r_head r' = r_head r \/
     (o = Done /\ exists k, In k tags /\ r_head r' = t_commit k /\
       exists s a b c, (want <> str "latest" /\ s = want \/
                        want = str "latest" /\ exists m, most_recent tags m /\ s = t_name m) /\
         asks s a b c /\ t_name k = text3 a b c)).
Proof. exact specify_safe. Qed.
Print Assumptions C87_only.

(** C87: a checkout is of the version that is then checked out. *)
Theorem C87_checkout : forall fetched refuses r want verbose ev r' o v,
  specify fetched refuses r want verbose = (ev, r', o) -> In (CheckedOut v) ev ->
  o = Done /\ exists k, In k (r_tags r') /\ t_name k = v /\ r_head r' = t_commit k.
Proof. exact specify_checkout. Qed.
Print Assumptions C87_checkout.

(** C87: a version there is no tag for is named in full, and nothing changes. *)
Theorem C87_unknown : forall fetched refuses r tags want verbose a b c,
  fetched r = inr tags -> r_url r = str "https://github.com/wube/factorio-data" ->
  (verbose = true -> at_tag (with_tags r tags)) ->
  asks want a b c -> (forall k, In k tags -> t_name k <> text3 a b c) ->
  exists ev, specify fetched refuses r want verbose
             = (ev, with_tags r tags, Unknown (text3 a b c)).
Proof. exact specify_unknown. Qed.
Print Assumptions C87_unknown.

(** C87: what is not a version is called invalid, and nothing changes. *)
Theorem C87_invalid : forall fetched refuses r tags want verbose,
  fetched r = inr tags -> r_url r = str "https://github.com/wube/factorio-data" ->
  (verbose = true -> at_tag (with_tags r tags)) ->
  want <> str "latest" -> (forall t, ~ read_as want t) ->
  exists ev, specify fetched refuses r want verbose = (ev, with_tags r tags, Invalid want).
Proof. exact specify_invalid. Qed.
Print Assumptions C87_invalid.

(** C87: another repository is refused, after fetching. *)
Theorem C87_foreign : forall fetched refuses r tags want verbose,
  fetched r = inr tags -> r_url r <> str "https://github.com/wube/factorio-data" ->
  specify fetched refuses r want verbose = ([Fetched], with_tags r tags, Raised AssertionError).
Proof. exact specify_foreign. Qed.
Print Assumptions C87_foreign.

(** C87: texts that ask for the same version do the same. *)
Theorem C87_alike : forall fetched refuses r want want' verbose a b c,
  asks want a b c -> asks want' a b c ->
  specify fetched refuses r want verbose = specify fetched refuses r want' verbose.
Proof. exact specify_alike. Qed.
Print Assumptions C87_alike.

(** C87: a text asks for one version at most; the text of a version for it. *)
Theorem C87_asks : forall s a b c a' b' c',
  asks (text3 a b c) a b c /\
  (asks s a b c -> asks s a' b' c' -> a = a' /\ b = b' /\ c = c') /\
  (text3 a b c = text3 a' b' c' -> a = a' /\ b = b' /\ c = c').
Proof.
  exact (fun s a b c a' b' c' =>
    conj (asks_text3 a b c) (conj (asks_fun s a b c a' b' c') (text3_inj a b c a' b' c'))).
Qed.
Print Assumptions C87_asks.

(** C87: "latest" is the tag of the latest commit, and if several are, the last
    of them. *)
Theorem C87_latest : forall fetched refuses r tags m verbose,
  fetched r = inr tags -> most_recent tags m -> t_name m <> str "latest" ->
  specify fetched refuses r (str "latest") verbose
  = specify fetched refuses r (t_name m) verbose.
Proof. exact specify_latest. Qed.
Print Assumptions C87_latest.

Theorem C87_recent : forall tags,
  (tags <> [] -> exists m, most_recent tags m) /\
  (forall m u, most_recent tags m -> most_recent tags u -> m = u) /\
  (forall m u, most_recent tags m -> In u tags -> t_time u <= t_time m).
Proof.
  exact (fun tags => conj (most_recent_exists tags)
    (conj (most_recent_unique tags) (most_recent_le tags))).
Qed.
Print Assumptions C87_recent.

(** C87: done twice, the second time changes nothing and checks nothing out. *)
Theorem C87_again : forall fetched refuses r want verbose ev r',
  specify fetched refuses r want verbose = (ev, r', Done) ->
  fetched r' = inr (r_tags r') -> NoDup (map t_commit (r_tags r')) ->
  exists ev', specify fetched refuses r' want verbose = (ev', r', Done) /\
    forall v, ~ In (CheckedOut v) ev'.
Proof. exact specify_again. Qed.
Print Assumptions C87_again.

(** C87: nothing is printed unless asked for ... *)
Theorem C87_quiet : forall fetched refuses r want ev r' o,
  specify fetched refuses r want false = (ev, r', o) -> forall e, In e ev -> ~ is_print e.
Proof. exact specify_quiet. Qed.
Print Assumptions C87_quiet.

(** ... and printing changes nothing if HEAD is at a tag. *)
Theorem C87_verbose : forall fetched refuses r tags want ev r' o ev2 r2 o2,
  fetched r = inr tags -> at_tag (with_tags r tags) ->
  specify fetched refuses r want false = (ev, r', o) ->
  specify fetched refuses r want true = (ev2, r2, o2) ->
  r2 = r' /\ o2 = o /\ forall v, In (CheckedOut v) ev2 <-> In (CheckedOut v) ev.
Proof. exact specify_verbose. Qed.
Print Assumptions C87_verbose.

(** What is printed: the first tag at HEAD, and then that it is the one wanted, or the change. *)
Theorem C87_lines : forall fetched refuses r tags want a b d k before c after, fetched r = inr tags ->
  r_url r = str "https://github.com/wube/factorio-data" -> names_differ (with_tags r tags) ->
  tags = before ++ c :: after -> t_commit c = r_head r -> (forall u, In u before -> t_commit u <> r_head r) ->
  asks want a b d -> In k tags -> t_name k = text3 a b d -> refuses (with_tags r tags) (text3 a b d) = None ->
  (t_name c = text3 a b d ->
   specify fetched refuses r want true =
     ([Fetched; Printed (str "Current Factorio version: " ++ t_name c);
       Printed (str "Desired Factorio version (" ++ text3 a b d ++ str ") already matches current.")],
      with_tags r tags, Done)) /\
  (t_name c <> text3 a b d ->
   specify fetched refuses r want true =
     ([Fetched; Printed (str "Current Factorio version: " ++ t_name c);
       Printed (str "Different Factorio version requested:" ++ [10%N; 9%N] ++ str "(" ++ t_name c ++ str ") -> ("
                ++ text3 a b d ++ str ")");
       CheckedOut (text3 a b d); Printed (str "Changed to Factorio version " ++ text3 a b d ++ [10%N])],
      Repo (r_url r) tags (t_commit k), Done)).
Proof. exact specify_lines. Qed.
Print Assumptions C87_lines.

(** C87: if HEAD is at no tag, a version there is is refused. *)
Theorem C87_detached : forall fetched refuses r tags want verbose a b c k,
  fetched r = inr tags -> r_url r = str "https://github.com/wube/factorio-data" -> ~ at_tag (with_tags r tags) ->
  asks want a b c -> In k tags -> t_name k = text3 a b c ->
  specify fetched refuses r want verbose
  = ([Fetched], with_tags r tags, Raised AttributeError).
Proof. exact specify_detached. Qed.
Print Assumptions C87_detached.

(** C87: the command without a version prints the first tag at HEAD, or None. *)
Theorem C87_report : forall fetched r tags,
  fetched r = inr tags -> r_url r = str "https://github.com/wube/factorio-data" ->
  exists line,
    report fetched r = ([Fetched; Printed (str "Factorio " ++ line)], with_tags r tags, Done) /\
    (at_tag (with_tags r tags) ->
       exists l1 t l2, tags = l1 ++ t :: l2 /\ t_commit t = r_head r /\ line = t_name t /\
         forall u, In u l1 -> t_commit u <> r_head r) /\
    (~ at_tag (with_tags r tags) -> line = str "None").
Proof. exact report_says. Qed.
Print Assumptions C87_report.

Theorem C87_report_after : forall fetched refuses r want verbose ev r' a b c,
  specify fetched refuses r want verbose = (ev, r', Done) -> asks want a b c ->
  fetched r' = inr (r_tags r') -> NoDup (map t_commit (r_tags r')) ->
  report fetched r' = ([Fetched; Printed (str "Factorio " ++ text3 a b c)], r', Done).
Proof. exact report_after. Qed.
Print Assumptions C87_report_after.

(** * Witnesses *)

Definition ex_tags : list tag :=
  [Tag (str "1.1.110") 11 300; Tag (str "2.0.7") 21 100; Tag (str "2.0.10") 22 200].
Definition ex_repo : repo := Repo FACTORIO_DATA ex_tags 21.
Definition no_news (r : repo) : exn + list tag := inr (r_tags r).
Definition never (_ : repo) (_ : pystr) : option exn := None.

(** Refuted: "a version there is a tag for can always be chosen" (script.py
    150-156): with HEAD at no tag, e.g. the tip of the main branch of a fresh
    clone, nothing can be chosen, not even "latest". *)
Theorem C87_detached_refuted : exists r k,
  names_differ r /\ In k (r_tags r) /\ asks (str "2.0.10") 2 0 10 /\ t_name k = text3 2 0 10 /\
  r_url r = str "https://github.com/wube/factorio-data" /\
  specify no_news never r (str "2.0.10") false = ([Fetched], r, Raised AttributeError) /\
  specify no_news never r (str "latest") false = ([Fetched], r, Raised AttributeError).
Proof.
  exists (Repo FACTORIO_DATA ex_tags 99), (Tag (str "2.0.10") 22 200).
  assert (A : asks (str "2.0.10") 2 0 10).
  { exists [2; 0; 10]. split; [|auto]. apply read_as_model. reflexivity. }
  split; [|split; [|split; [exact A|]]].
  - unfold names_differ. cbn [map r_tags ex_tags t_name].
    repeat (constructor; [simpl; intros H; repeat (destruct H as [H|H]; [discriminate|]); exact H|]).
    constructor.
  - simpl. auto.
  - repeat split.
Qed.
Print Assumptions C87_detached_refuted.

(** Refuted: "[verbose] only prints" (update.py 250-251): with HEAD at no tag
    an invalid version is no longer called invalid. *)
Theorem C87_verbose_refuted : exists r want,
  specify no_news never r want false = ([Fetched], r, Invalid want) /\
  specify no_news never r want true = ([Fetched], r, Raised AttributeError).
Proof. exists (Repo FACTORIO_DATA ex_tags 99), (str "two"). split; reflexivity. Qed.
Print Assumptions C87_verbose_refuted.

(** Refuted: "latest is the highest version" (script.py 155-156): the latest
    commit may be of an older line. *)
Theorem C87_latest_refuted : exists r r' ev,
  specify no_news never r (str "latest") false = (ev, r', Done) /\
  r_head r' = 11%N /\ In (Tag (str "1.1.110") 11 300) (r_tags r') /\
  In (Tag (str "2.0.10") 22 200) (r_tags r').
Proof.
  exists ex_repo. eexists. eexists. split; [reflexivity|].
  split; [reflexivity|]. split; [left; reflexivity|right; right; left; reflexivity].
Qed.
Print Assumptions C87_latest_refuted.

(** Refuted: "a tag can be asked for by its name": a tag that is not named by
    three numbers as they are printed cannot, nor can "latest" if it is the
    latest. *)
Theorem C87_name_refuted : exists r k,
  In k (r_tags r) /\ at_tag r /\ r_url r = str "https://github.com/wube/factorio-data" /\ most_recent (r_tags r) k /\
  specify no_news never r (t_name k) false = ([Fetched], r, Unknown (str "2.0.7")) /\
  specify no_news never r (str "latest") false = ([Fetched], r, Unknown (str "2.0.7")).
Proof.
  exists (Repo FACTORIO_DATA [Tag (str "2.0.07") 7 1] 7), (Tag (str "2.0.07") 7 1).
  split; [simpl; auto|]. split; [exists (Tag (str "2.0.07") 7 1); simpl; auto|].
  split; [reflexivity|]. split.
  - exists [], []. split; [reflexivity|]. split; intros u [].
  - split; reflexivity.
Qed.
Print Assumptions C87_name_refuted.

Example C87_ex :
  specify no_news never ex_repo (str "2.0.10.1") true
  = ([Fetched; Printed (str "Current Factorio version: 2.0.7");
      Printed (str "Different Factorio version requested:" ++ [10%N; 9%N]
               ++ str "(2.0.7) -> (2.0.10)");
      CheckedOut (str "2.0.10"); Printed (str "Changed to Factorio version 2.0.10" ++ [10%N])],
     Repo FACTORIO_DATA ex_tags 22, Done) /\
  specify no_news never ex_repo (str "2.0.7") false = ([Fetched], ex_repo, Done) /\
  specify no_news never ex_repo (str "2") false = ([Fetched], ex_repo, Unknown (str "2.0.0")) /\
  specify no_news never ex_repo (str "2.x") false = ([Fetched], ex_repo, Invalid (str "2.x")) /\
  specify no_news (fun _ _ => Some DraftsmanError) ex_repo (str "2.0.10") false
  = ([Fetched], ex_repo, Raised DraftsmanError) /\
  report no_news ex_repo = ([Fetched; Printed (str "Factorio 2.0.7")], ex_repo, Done) /\
  r_head (snd (fst (specify no_news never ex_repo (str "latest") false))) = 11%N.
Proof. vm_compute. intuition congruence. Qed.

(** * The version that is written *)

(** C87: the version written is the one of the data, with ".0" if it has three
    numbers; a text that is no version is refused. *)
Theorem C87_version : forall v,
  (forall t, read_as v t ->
     data_version v = Ok (if Nat.eqb (List.length t) 3 then (v ++ str ".0", t ++ [0])
                          else (v, t))) /\
  ((forall t, ~ read_as v t) -> data_version v = Err ValueError) /\
  (forall t, read_as v t -> read_as (v ++ str ".0") (t ++ [0])).
Proof.
  exact (fun v => conj (data_version_spec v) (conj (data_version_bad v) (read_as_zero v))).
Qed.
Print Assumptions C87_version.

(** C87: the text and the tuple can be read off the file. *)
Theorem C87_text : forall v t, read_as v t -> holds_version (version_text v t) v t.
Proof. exact version_text_holds. Qed.
Print Assumptions C87_text.

(** Refuted: "Normalize it to 4 numbers" (update.py 1752): only if there are
    three. *)
Theorem C87_four_refuted :
  data_version (str "2.0") = Ok (str "2.0", [2; 0]) /\
  data_version (str "2.0.42.1.5") = Ok (str "2.0.42.1.5", [2; 0; 42; 1; 5]).
Proof. split; reflexivity. Qed.
Print Assumptions C87_four_refuted.

Example C87_text_ex :
  data_version (str "2.0.42") = Ok (str "2.0.42.0", [2; 0; 42; 0]) /\
  version_text (str "2.0.42.0") [2; 0; 42; 0]
  = str "# _factorio_version.py" ++ [10%N; 10%N] ++
    str "__factorio_version__ = " ++ [34%N] ++ str "2.0.42.0" ++ [34%N; 10%N] ++
    str "__factorio_version_info__ = (2, 0, 42, 0)" ++ [10%N].
Proof. split; reflexivity. Qed.

(** * An update *)

(** C87: once the version is known, it is written, then the files of the data
    in order up to the first that cannot be extracted; those after it, and
    everything else, stay as they were. *)
Theorem C87_update : forall lifecycle extract items f v t v' t' g res,
  lifecycle = Ok tt -> read_as v t -> data_version v = Ok (v', t') ->
  update lifecycle extract items f v = (g, res) ->
  g VERSION_FILE = Some (version_text v' t') /\
  exists done rest, in_order = done ++ rest /\
    (forall n, In n done -> exists c, extract n = Ok c /\ g n = Some c) /\
    (forall n, ~ In n done -> n <> VERSION_FILE -> g n = f n) /\
    ((res = Ok tt /\ rest = []) \/ (exists e, res = Err e /\ rest <> [])).
Proof. exact update_spec. Qed.
Print Assumptions C87_update.

Theorem C87_update_ok : forall lifecycle extract items f v t v' t',
  lifecycle = Ok tt -> items = Ok tt -> read_as v t -> data_version v = Ok (v', t') ->
  (forall n, In n in_order -> exists c, extract n = Ok c) ->
  snd (update lifecycle extract items f v) = Ok tt.
Proof. exact update_ok. Qed.
Print Assumptions C87_update_ok.

(** C87: if the data cannot be loaded or has no version, nothing is written. *)
Theorem C87_update_early : forall lifecycle extract items f v,
  (exists e, lifecycle = Err e) \/ (forall t, ~ read_as v t) ->
  exists e, update lifecycle extract items f v = (f, Err e).
Proof. exact update_early. Qed.
Print Assumptions C87_update_early.

(** Refuted: "an update that fails changes nothing": the new version is written
    and some of the files, next to the old ones. *)
Theorem C87_update_refuted : exists extract f g e,
  update (Ok tt) extract (Ok tt) f (str "2.0.42") = (g, Err e) /\
  g VERSION_FILE <> f VERSION_FILE /\ g (str "entities.pkl") <> f (str "entities.pkl") /\
  g (str "tiles.pkl") = f (str "tiles.pkl").
Proof.
  exists (fun n => if pystr_eqb n (str "recipes.pkl") then Err KeyError else Ok (str "new")),
    (fun _ => Some (str "old")).
  eexists. exists KeyError. split; [reflexivity|]. repeat split; vm_compute; congruence.
Qed.
Print Assumptions C87_update_refuted.

Example C87_update_ex :
  let '(g, res) := update (Ok tt) (fun n => Ok (str "new " ++ n)) (Ok tt) (fun _ => None)
                          (str "2.0.42") in
  res = Ok tt /\ g (str "tiles.pkl") = Some (str "new tiles.pkl") /\ g (str "x.py") = None /\
  g VERSION_FILE = Some (version_text (str "2.0.42.0") [2; 0; 42; 0]).
Proof. vm_compute. auto. Qed.

(** * Settings *)

(** C87: the settings are listed by kind, in their order, strings quoted. *)
Theorem C87_settings : forall d a b c,
  lookup d (str "startup") = Some a -> lookup d (str "runtime-global") = Some b ->
  lookup d (str "runtime-per-user") = Some c ->
  show_settings d = (block (str "STARTUP:") a ++ block (str "RUNTIME-GLOBAL:") b
                     ++ block (str "RUNTIME-PER-USER:") c, Ok tt).
Proof. exact show_settings_spec. Qed.
Print Assumptions C87_settings.
(** A kind that is missing is a KeyError after what comes before it was printed. *)
Theorem C87_settings_missing : forall d,
  (lookup d (str "startup") = None -> show_settings d = ([], Err KeyError)) /\
  (forall a, lookup d (str "startup") = Some a -> lookup d (str "runtime-global") = None ->
     show_settings d = (block (str "STARTUP:") a, Err KeyError)) /\
  (forall a b, lookup d (str "startup") = Some a -> lookup d (str "runtime-global") = Some b ->
     lookup d (str "runtime-per-user") = None ->
     show_settings d = (block (str "STARTUP:") a ++ block (str "RUNTIME-GLOBAL:") b, Err KeyError)).
Proof. exact show_settings_missing. Qed.
Print Assumptions C87_settings_missing.

Example C87_settings_ex :
  show_settings [(str "runtime-per-user", [(str "mode", SStr (str "fast"))]);
                 (str "startup", [(str "on", SOther (str "True")); (str "n", SOther (str "3"))]);
                 (str "runtime-global", [])]
  = ([str "STARTUP:"; [9%N] ++ str "on: True"; [9%N] ++ str "n: 3"; str "RUNTIME-PER-USER:";
      [9%N] ++ str "mode: 'fast'"], Ok tt).
Proof. reflexivity. Qed.
