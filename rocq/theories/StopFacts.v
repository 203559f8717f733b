(** StopFacts.v -- lemmas for C87. *)

From Coq Require Import String List NArith ZArith Bool Lia.
From Verif Require Import Text Utf8 Json Base Syntax Parse Tree Interp Build Disk Cli Load Dev New Report Main.
From Verif Require Import SpecScope SpecTree SpecDisk SpecProject SpecChars SpecMarkdown SpecDev SpecMain SpecStop.
From Verif Require Import Utf8Facts DiskFacts ScopeFacts ProgramFacts MainFacts DevFacts.
Import ListNotations.

Lemma start_fault w manifest output mode p d e : meant (w_cwd w) manifest p -> manifest_fault w p d e ->
  start w manifest output mode d = (d, SErr e, []).
Proof.
  intros M F. apply join_meant in M. unfold start. cbn zeta. rewrite M. destruct F as [W|W|b W U|b t l c m W U T|b t m W U T]; unfold what in W.
  - now destruct (lookup p d) as [[]|].
  - destruct (lookup p d) as [[]|]; destruct W; try discriminate; reflexivity.
  - destruct (lookup p d) as [[b'| |]|]; try discriminate. injection W as ->. destruct (from_utf8 b) as [t|] eqn:E; [|reflexivity]. apply decoding in E. now apply U in E.
  - destruct (lookup p d) as [[b'| |]|]; try discriminate. injection W as ->. apply decoding in U. rewrite U, T. now rewrite (N.add_comm l), (N.add_comm c).
  - destruct (lookup p d) as [[b'| |]|]; try discriminate. injection W as ->. apply decoding in U. now rewrite U, T.
Qed.
Lemma bench_manifest w : meant (w_cwd w) (lit "stuart.toml") (w_cwd w ++ [lit "stuart.toml"]).
Proof. apply join_meant. reflexivity. Qed.
Lemma main_fault w lv c p d e : manifest_of w c p -> manifest_fault w p d e -> main w lv c d = (d, Exit 1, [Report e]).
Proof.
  intros M F. destruct c as [manifest output|? ?|iters|]; cbn [manifest_of] in M; try contradiction; unfold main, perform.
  - unfold build_command. cbn zeta. now rewrite (start_fault w manifest output (lit "production") p d e M F).
  - subst p. unfold bench_command. cbn zeta. now rewrite (start_fault w _ (lit "dist") (lit "benchmark") _ d e (bench_manifest w) F).
Qed.
Lemma fault_or_site w p d : (exists e, manifest_fault w p d e) \/ (exists r deps, manifest_says w p d r deps).
Proof.
  destruct (what p d) as [|b| |] eqn:W; [left; eexists; now apply mf_missing| |left; eexists; apply mf_kind; tauto|left; eexists; apply mf_kind; tauto].
  destruct (from_utf8 b) as [t|] eqn:U.
  - apply decoding in U. destruct (w_toml w t) as [r deps|[[l c]|] m] eqn:T.
    + right. exists r, deps, b, t. tauto.
    + left. eexists. now apply (mf_place w p d b t l c m).
    + left. eexists. now apply (mf_text w p d b t m).
  - left. eexists. apply (mf_bytes w p d b W). intros t X. apply decoding in X. congruence.
Qed.

Lemma start_stopped w manifest output mode dir name d r deps d' x : meant (w_cwd w) manifest (dir ++ [name]) ->
  manifest_says w (dir ++ [name]) d r deps -> stops_loading w dir deps d d' x -> (x = LErr \/ x = LPanic) ->
  exists said, start w manifest output mode d = (d', match x with LErr => SErr (ME_Msg (lit "Plugins failed to load")) | _ => SPanic Pn_plugin end, said).
Proof.
  intros M (b & t & W & U & T) L X. apply join_meant in M. apply decoding in U. unfold stops_loading in L. cbn zeta in L.
  apply plugins_stopped in L; [|now destruct X; subst]. unfold start. cbn zeta. rewrite M, removelast_last.
  unfold what in W. destruct (lookup (dir ++ [name]) d) as [[b'|l|]|]; try discriminate. injection W as ->. rewrite U, T, L. destruct X; subst x; eexists; reflexivity.
Qed.
Lemma main_stopped w lv c dir name d r deps d' : manifest_of w c (dir ++ [name]) -> manifest_says w (dir ++ [name]) d r deps ->
  stops_loading w dir deps d d' LErr -> exists items, main w lv c d = (d', Exit 1, items ++ [Report (ME_Msg (lit "Plugins failed to load"))]).
Proof.
  intros M S L. destruct c as [manifest output|? ?|iters|]; cbn [manifest_of] in M; try contradiction; unfold main, perform.
  - destruct (start_stopped w manifest output (lit "production") dir name d r deps d' LErr M S L (or_introl eq_refl)) as [said E].
    unfold build_command. cbn zeta. rewrite E. cbn [outcome_at_start]. eexists. rewrite app_assoc. reflexivity.
  - pose proof (bench_manifest w) as M'. rewrite <- M in M'. destruct (start_stopped w _ (lit "dist") (lit "benchmark") dir name d r deps d' LErr M' S L (or_introl eq_refl)) as [said E].
    unfold bench_command. cbn zeta. rewrite E. cbn [outcome_at_start]. eexists. rewrite app_assoc. reflexivity.
Qed.
Lemma main_iterations w lv iters d r deps d0 ps : let dir := w_cwd w in manifest_says w (dir ++ [lit "stuart.toml"]) d r deps ->
  loads_all (lo_js (w_loader w)) (load_from_source (w_loader w) (w_load_faults w) dir) deps d d0 ps ->
  (forall n, SpecScope.numeral n iters -> ~ fits_usize n) ->
  exists items, main w lv (CmdBench iters) d = (d0, Exit 1, items ++ [Report (ME_Msg (lit "invalid value for iterations"))]).
Proof.
  intros dir S L N. destruct (start_ok w (lit "stuart.toml") (lit "dist") (lit "benchmark") d dir _ r deps d0 ps (bench_manifest w) S L) as [said E].
  unfold main, perform, bench_command. cbn zeta. rewrite E. destruct (parse_usize iters) as [n|] eqn:P; [apply parse_usize_iff in P; destruct P as [P1 P2]; now apply N in P1|].
  cbn [outcome_of main_error_of]. eexists. rewrite app_assoc. reflexivity.
Qed.

(** ** The report *)
Lemma manifest_shown s d p b t l c m ls cur : what p d = KFile b -> utf8_text b t -> text_lines ls t -> nth_error ls (N.to_nat l) = Some cur ->
  exists rep, main_printed s d (ME_Manifest (TB p (1 + l) (1 + c) m)) = Ok (lit "error: " ++ unlines rep) /\
    with_preview (show_path (sn_cwd s) p) (1 + l) (1 + c) [m] None cur (N.to_nat c - 1) rep.
Proof.
  intros W U L E. apply decoding in U. unfold what in W. cbn [main_printed]. unfold display_at, contents_at. cbn [tb_path tb_line tb_col tb_kind].
  destruct (lookup p d) as [[b'| |]|]; try discriminate. injection W as ->. rewrite U.
  destruct (report_preview (sn_checked s) (show_path (sn_cwd s) p) (1 + l) (1 + c) [m] None t ls cur L) as (rep & R & V); [lia| |].
  - replace (N.to_nat (1 + l - 1)) with (N.to_nat l) by lia. exact E.
  - exists rep. rewrite R. split; [reflexivity|]. now replace (N.to_nat c - 1) with (N.to_nat (1 + c) - 2) by lia.
Qed.

(** ** Cleaning *)
Lemma clean_one_stuck fl p d : p <> [] -> stuck_dir fl p d -> exists d', clean_one rmtree fl p d = (d', false) /\ same_outside p d d' /\ (fl = None -> d' = d).
Proof.
  intros NE [N F]. pose proof (clean_one_outside rmtree fl p d (or_introl eq_refl)) as O. unfold clean_one in *. unfold what in N, F. destruct (lookup p d) as [e|] eqn:L; [|now cbn in N].
  destruct fl as [j|]; [eexists; split; [reflexivity|]; split; [exact O|discriminate]|]. destruct F as [F|F]; [congruence|].
  unfold rmtree in *. destruct p as [|k p]; [congruence|]. rewrite L in *. destruct e; [|now cbn in F|]; (eexists; split; [reflexivity|]; split; [exact O|reflexivity]).
Qed.
Lemma clean_one_stuck_file fl p d : p <> [] -> stuck_file fl p d -> exists d', clean_one rmfile fl p d = (d', false) /\ same_outside p d d' /\ (fl = None -> d' = d).
Proof.
  intros NE [N F]. pose proof (clean_one_outside rmfile fl p d (or_intror eq_refl)) as O. unfold clean_one in *. unfold what in N, F. destruct (lookup p d) as [e|] eqn:L; [|now cbn in N].
  destruct fl as [j|]; [eexists; split; [reflexivity|]; split; [exact O|discriminate]|]. destruct F as [F|F]; [congruence|].
  unfold rmfile in *. destruct p as [|k p]; [congruence|]. rewrite L in *. destruct e as [b| |]; [now destruct (F b)| |]; (eexists; split; [reflexivity|]; split; [exact O|reflexivity]).
Qed.
Lemma clean_one_free fl p d : p <> [] -> ent_distinct d -> ~ stuck_dir fl p d ->
  exists d', clean_one rmtree fl p d = (d', true) /\ same_outside p d d' /\ ent_distinct d' /\ forall q, above p q -> what q d' = KNone.
Proof.
  intros NE D F. assert (X : exists d', clean_one rmtree fl p d = (d', true)).
  { destruct (what p d) eqn:W; try (exfalso; apply F; split; [congruence|right; congruence]).
    - unfold clean_one. unfold what in W. destruct (lookup p d) as [[]|]; try discriminate. eauto.
    - destruct fl as [j|]; [exfalso; apply F; split; [congruence|left; discriminate]|]. apply clean_one_works; [|exact NE]. left. now split. }
  destruct X as [d' E]. exists d'. split; [exact E|]. pose proof (clean_one_outside rmtree fl p d (or_introl eq_refl)) as O. rewrite E in O. split; [exact O|]. now apply (clean_one_gone rmtree fl p d d' (or_introl eq_refl) D E).
Qed.
Lemma clean_one_free_file fl p d : p <> [] -> ent_distinct d -> ~ stuck_file fl p d ->
  exists d', clean_one rmfile fl p d = (d', true).
Proof.
  intros NE D F. destruct (what p d) eqn:W; try (exfalso; apply F; split; [congruence|right; congruence]).
  - unfold clean_one. unfold what in W. destruct (lookup p d) as [[]|]; try discriminate. eauto.
  - destruct fl as [j|]; [exfalso; apply F; split; [congruence|left; discriminate]|]. apply clean_one_works; [|exact NE]. right. left. split; eauto.
Qed.
Lemma snoc_ne (dir : path) n : dir ++ [n] <> [].
Proof. now destruct dir. Qed.
Lemma stuck_same {fl p d d'} : what p d' = what p d -> (stuck_dir fl p d' <-> stuck_dir fl p d) /\ (stuck_file fl p d' <-> stuck_file fl p d).
Proof. unfold stuck_dir, stuck_file. intros ->. tauto. Qed.
Lemma sibling (dir : path) (a b : text) : a <> b -> ~ above (dir ++ [a]) (dir ++ [b]).
Proof. intros NE. apply (snoc_apart dir b a); [congruence|]. exists []. now rewrite app_nil_r. Qed.

Lemma stuck_dec fl p d : stuck_dir fl p d \/ ~ stuck_dir fl p d.
Proof. unfold stuck_dir. destruct (what p d), fl; try (right; intros [A B]; tauto); try (left; split; [discriminate|]; now (left + right)). Qed.
Lemma stuck_file_dec fl p d : stuck_file fl p d \/ ~ stuck_file fl p d.
Proof. unfold stuck_file. destruct (what p d), fl; try (right; intros [A B]; tauto); try (left; split; [discriminate|]; now (left + right)). right. intros [_ [X|X]]; [congruence|now destruct (X b)]. Qed.

Lemma clean_stopped w lv d gone n fault m : let dir := w_cwd w in ent_distinct d -> what (dir ++ [lit "stuart.toml"]) d <> KNone ->
  clean_stops (w_clean_faults w) dir d gone n fault m ->
  exists d', main w lv CmdClean d = (d', Exit 1, [Report (ME_Msg m)]) /\
    (forall q, among dir gone q -> what q d' = KNone) /\
    (forall q, ~ among dir (n :: gone) q -> what q d' = what q d) /\
    (fault = None -> forall q, ~ among dir gone q -> what q d' = what q d).
Proof.
  intros dir D T C. unfold main, perform, clean_command. cbn zeta. fold dir. unfold clean.
  assert (exists e, lookup (dir ++ [lit "stuart.toml"]) d = Some e) as [e LT] by (unfold what in T; destruct (lookup (dir ++ [lit "stuart.toml"]) d); [eauto|now cbn in T]). rewrite LT.
  destruct C as [S1|F1 S2|F1 F2 S3].
  - destruct (clean_one_stuck _ _ d (snoc_ne dir _) S1) as (d1 & E1 & O1 & K1). rewrite E1. cbn [snd fst filter app existsb]. exists d1. split; [reflexivity|]. split; [intros q (n & [] & _)|]. split.
    + intros q NA. apply O1. intros A. apply NA. exists (lit "dist"). split; [now left|exact A].
    + intros K q _. now rewrite (K1 K).
  - destruct (clean_one_free _ _ d (snoc_ne dir _) D F1) as (d1 & E1 & O1 & D1 & G1). rewrite E1. cbn [fst snd].
    destruct (clean_one_stuck (w_clean_faults w 1) (dir ++ [lit "_build"]) d1) as (d2 & E2 & O2 & K2); [apply snoc_ne|apply (stuck_same (O1 _ (sibling dir (lit "dist") (lit "_build") ltac:(discriminate)))); exact S2|].
    rewrite E2. cbn [snd fst filter app existsb]. exists d2. split; [reflexivity|]. split.
    + intros q (n & [<-|[]] & A). rewrite O2; [now apply G1|]. apply (snoc_apart dir (lit "dist") (lit "_build")); [discriminate|exact A].
    + split.
      * intros q NA. rewrite O2, O1; [reflexivity| |]; intros A; apply NA; eexists; (split; [|exact A]); cbn; tauto.
      * intros K q NA. rewrite (K2 K). apply O1. intros A. apply NA. eexists; (split; [|exact A]); now left.
  - destruct (clean_one_free _ _ d (snoc_ne dir _) D F1) as (d1 & E1 & O1 & D1 & G1). rewrite E1. cbn [fst snd].
    destruct (clean_one_free (w_clean_faults w 1) (dir ++ [lit "_build"]) d1) as (d2 & E2 & O2 & D2 & G2); [apply snoc_ne|exact D1|rewrite (proj1 (stuck_same (O1 _ (sibling dir (lit "dist") (lit "_build") ltac:(discriminate))))); exact F2|].
    rewrite E2. cbn [fst snd].
    assert (W3 : what (dir ++ [lit "metadata.json"]) d2 = what (dir ++ [lit "metadata.json"]) d) by (rewrite O2, O1; [reflexivity| |]; apply sibling; discriminate).
    destruct (clean_one_stuck_file (w_clean_faults w 2) (dir ++ [lit "metadata.json"]) d2) as (d3 & E3 & O3 & K3); [apply snoc_ne|now apply (stuck_same W3)|].
    rewrite E3. cbn [snd fst filter app existsb]. exists d3. split; [reflexivity|]. split.
    + intros q (n & [<-|[<-|[]]] & A).
      * rewrite O3, O2; [now apply G1| |]; (eapply snoc_apart; [|exact A]; discriminate).
      * rewrite O3; [now apply G2|]. eapply snoc_apart; [|exact A]; discriminate.
    + split.
      * intros q NA. rewrite O3, O2, O1; [reflexivity| | |]; intros A; apply NA; eexists; (split; [|exact A]); cbn; tauto.
      * intros K q NA. rewrite (K3 K), O2, O1; [reflexivity| |]; intros A; apply NA; eexists; (split; [|exact A]); cbn; tauto.
Qed.
Lemma clean_nowhere w lv d : what (w_cwd w ++ [lit "stuart.toml"]) d = KNone ->
  main w lv CmdClean d = (d, Exit 1, [Report (ME_Msg (lit "current working directory is not a Stuart project"))]).
Proof.
  intros W. unfold main, perform, clean_command. cbn zeta. unfold what in W. assert (L : lookup (w_cwd w ++ [lit "stuart.toml"]) d = None) by (destruct (lookup (w_cwd w ++ [lit "stuart.toml"]) d) as [[]|]; [discriminate..|reflexivity]).
  rewrite (clean_outside _ _ _ L), L. reflexivity.
Qed.
Lemma clean_or w lv d : let dir := w_cwd w in ent_distinct d -> what (dir ++ [lit "stuart.toml"]) d <> KNone ->
  (exists gone n fault m, clean_stops (w_clean_faults w) dir d gone n fault m) \/
  (exists d', main w lv CmdClean d = (d', Exit 0, [])).
Proof.
  intros dir D T. destruct (stuck_dec (w_clean_faults w 0) (dir ++ [lit "dist"]) d) as [S1|F1]; [left; do 4 eexists; now apply cs_output|].
  destruct (stuck_dec (w_clean_faults w 1) (dir ++ [lit "_build"]) d) as [S2|F2]; [left; do 4 eexists; now apply cs_build|].
  destruct (stuck_file_dec (w_clean_faults w 2) (dir ++ [lit "metadata.json"]) d) as [S3|F3]; [left; do 4 eexists; now apply cs_metadata|]. right.
  unfold main, perform, clean_command. cbn zeta. fold dir. unfold clean.
  assert (exists e, lookup (dir ++ [lit "stuart.toml"]) d = Some e) as [e LT] by (unfold what in T; destruct (lookup (dir ++ [lit "stuart.toml"]) d); [eauto|now cbn in T]). rewrite LT.
  destruct (clean_one_free _ _ d (snoc_ne dir _) D F1) as (d1 & E1 & O1 & D1 & G1). rewrite E1.
  destruct (clean_one_free (w_clean_faults w 1) (dir ++ [lit "_build"]) d1) as (d2 & E2 & O2 & D2 & G2); [apply snoc_ne|exact D1|rewrite (proj1 (stuck_same (O1 _ (sibling dir (lit "dist") (lit "_build") ltac:(discriminate))))); exact F2|]. rewrite E2.
  assert (W3 : what (dir ++ [lit "metadata.json"]) d2 = what (dir ++ [lit "metadata.json"]) d) by (rewrite O2, O1; [reflexivity| |]; apply sibling; discriminate).
  destruct (clean_one_free_file (w_clean_faults w 2) (dir ++ [lit "metadata.json"]) d2) as [d3 E3]; [apply snoc_ne|exact D2|now rewrite (proj2 (stuck_same W3))|].
  rewrite E3. eexists. reflexivity.
Qed.
