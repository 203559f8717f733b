(** MainFacts.v -- facts about whole runs of the program (C76 to C78). *)

From Coq Require Import String List NArith ZArith Bool Lia.
From Verif Require Import Text Utf8 Json Base Syntax Parse Tree Interp Build Disk Cli Load Dev New Report Main.
From Verif Require Import SpecScope SpecRender SpecTemplate SpecTree SpecDisk SpecProject SpecChars SpecSite SpecNew SpecUtf8 SpecMain.
From Verif Require Import TextFacts Utf8Facts ScopeFacts TreeFacts PathFacts DiskFacts SaveFacts ProjectFacts CliFacts NewFacts SiteDisk NewSite AgainFacts ProgramFacts.
Import ListNotations.

(** ** What is shown *)
Definition no_report (l : list note) : Prop := forall e, ~ In (Report e) l.
Lemma nr_app l l' : no_report l -> no_report l' -> no_report (l ++ l').
Proof. intros A B e I. apply in_app_iff in I. destruct I as [I|I]; [now apply (A e)|now apply (B e)]. Qed.
Lemma nr_nil : no_report [].
Proof. intros e []. Qed.
Lemma nr_log v l : no_report l -> no_report (Log v :: l).
Proof. intros A e [I|I]; [discriminate|now apply (A e)]. Qed.
Lemma nr_filter P l : no_report l -> no_report (filter P l).
Proof. intros A e I. apply filter_In in I. now apply (A e). Qed.
Lemma source_log_nr L fs root name s d : no_report (source_log L fs root name s d).
Proof.
  unfold source_log. cbn zeta. destruct (lookup (join_path root s) d) as [[|l|]|]; destruct (lookup (join_path root s ++ [lit "Cargo.toml"]) d);
    repeat match goal with |- no_report (if ?x then _ else _) => destruct x | |- no_report (match ?x with _ => _ end) => destruct x | |- no_report [] => apply nr_nil | |- no_report (Log _ :: _) => apply nr_log end.
Qed.
Lemma sources_nr js ld lg name srcs : (forall n s d, no_report (lg n s d)) -> forall seen d, no_report (sources_say js ld lg name srcs seen d).
Proof.
  intros G. induction srcs as [|s srcs IH]; intros seen d; cbn [sources_say]; [apply nr_nil|]. destruct (skip_source js s); [apply nr_log, IH|].
  apply nr_app; [apply G|]. destruct (ld name s d) as [d' [ps| |]]; try apply nr_nil. apply nr_app; [|apply IH]. destruct seen; [apply nr_nil|]. intros e [I|[]]. discriminate.
Qed.
Lemma plugins_nr js ld lg deps : (forall n s d, no_report (lg n s d)) -> forall d, no_report (plugins_say js ld lg deps d).
Proof.
  intros G. induction deps as [|[name src] deps IH]; intros d; cbn [plugins_say]; [apply nr_nil|]. destruct (split_char 59%N src) as [h r].
  apply nr_app; [now apply sources_nr|]. destruct (load_sources js ld name (h :: r) d) as [d1 [ps| |]]; try apply nr_nil. apply IH.
Qed.
Lemma start_nr w manifest output mode d : no_report (snd (start w manifest output mode d)).
Proof.
  unfold start. cbn zeta. destruct (lookup _ d) as [e|]; [|apply nr_nil]. destruct (match e with EFile b => from_utf8 b | _ => None end) as [t|]; [|apply nr_nil].
  destruct (w_toml w t) as [r deps|[[l c]|] m]; try apply nr_nil. destruct (load_plugins _ _ deps d) as [d1 [ps| |]]; cbn [snd]; try (apply plugins_nr; intros; apply source_log_nr).
  apply nr_app; [apply plugins_nr; intros; apply source_log_nr|]. destruct ps; [apply nr_nil|]. apply nr_log, nr_nil.
Qed.
Lemma scripts_say_log sc l : forall d i, In i (scripts_say sc l d) -> is_log i = true.
Proof. induction l as [|n l IH]; intros d i I; [destruct I|]. cbn [scripts_say] in I. destruct I as [<-|I]; [reflexivity|]. destruct (sc n d) as [d' []]; try destruct I. now apply (IH d'). Qed.
Lemma build_says_log m f c d : forall i, In i (build_says m f c d) -> is_log i = true.
Proof.
  intros i I. unfold build_says in I. apply in_app_iff in I. destruct I as [I|I]; [now apply scripts_say_log in I|].
  destruct (run_scripts _ _ d) as [d1 [e|]]; [destruct I|]. destruct I as [<-|I]; [reflexivity|]. destruct (build_and_merge m c d1) as [st1 [u| | |]]; try destruct I.
  cbn zeta in I. destruct (save _ _ _ _) as [d3 [u3| | |]]; try destruct I. apply in_app_iff in I. destruct I as [I|I].
  - destruct (cf_meta _); [destruct I as [<-|[]]; reflexivity|destruct I].
  - match type of I with context [match ?x with (_, _) => _ end] => destruct x as [d4 [u4| | |]] end; try destruct I. apply in_app_iff in I. destruct I as [I|I]; [now apply scripts_say_log in I|].
    destruct (run_scripts _ _ d4) as [d5 [e|]]; [destruct I|destruct I as [<-|[]]; reflexivity].
Qed.
Lemma logs_nr l : (forall i, In i l -> is_log i = true) -> no_report l.
Proof. intros A e I. now apply A in I. Qed.
Lemma bench_says_nr m fs n total : forall k c d, no_report (bench_says m fs k n total c d).
Proof.
  induction n as [|n IH]; intros k c d; cbn [bench_says].
  - intros e I. cbn in I. intuition discriminate.
  - destruct (cli_build m (fs k) c d) as [[c' d'] []]; try apply nr_nil. apply nr_app; [intros e [I|[]]; discriminate|]. apply nr_app; [|apply IH].
    destruct (N.eqb _ total); [intros e [I|[]]; discriminate|apply nr_nil].
Qed.
Lemma perform_nr w c d : no_report (snd (perform w c d)).
Proof.
  destruct c as [manifest output|name g|iters|]; cbn [perform].
  - unfold build_command. cbn zeta. pose proof (start_nr w manifest output (lit "production") d) as S. destruct (start w manifest output _ d) as [[d1 [c|e|p]] said]; cbn [snd] in *; try exact S.
    destruct (cli_build _ _ c d1) as [[c' d2] r]. cbn [snd]. apply nr_app; [exact S|]. apply logs_nr. intros i. apply build_says_log.
  - unfold new_command. destruct (new_site _ _ _ _ _ _ _ _) as [d' [u| | |]]; cbn [snd]; try apply nr_nil. apply nr_log, nr_nil.
  - unfold bench_command. cbn zeta. pose proof (start_nr w (lit "stuart.toml") (lit "dist") (lit "benchmark") d) as S. destruct (start w _ _ _ d) as [[d1 [c|e|p]] said]; cbn [snd] in *; try exact S.
    destruct (parse_usize iters) as [n|]; [|exact S]. destruct (bench_loop _ _ _ _ _ _) as [d2 r]. cbn [snd]. apply nr_app; [exact S|]. apply nr_app; [intros e [I|[]]; discriminate|]. apply bench_says_nr.
  - unfold clean_command. cbn zeta. destruct (clean _ _ d) as [d' []]; apply nr_nil.
Qed.
Lemma exit_status w lv c d d' x items : main w lv c d = (d', x, items) ->
  (x = Exit 0 -> no_report items) /\
  (x = Exit 1 -> exists pre e, items = pre ++ [Report e] /\ no_report pre) /\
  (x = Exit 0 \/ x = Exit 1 \/ x = Exit 101 \/ x = Runs).
Proof.
  unfold main. pose proof (perform_nr w c d) as N. destruct (perform w c d) as [[d1 o] said]. cbn [snd] in N.
  assert (NF := nr_filter (let_through lv) said N). destruct o as [|e|p|]; intros E; injection E as <- <- <-; (split; [|split]).
  all: try (now intros X). all: try tauto.
  intros _. exists (filter (let_through lv) said ++ (if existsb is_log (filter (let_through lv) said) then [Blank] else [])), e. split; [now rewrite app_assoc|].
  apply nr_app; [exact NF|]. destruct (existsb _ _); [|apply nr_nil]. intros e' [I|[]]. discriminate.
Qed.

(** ** The log level *)
Lemma filter_filter {A} (P Q : A -> bool) l : (forall x, P x = true -> Q x = true) -> filter P (filter Q l) = filter P l.
Proof.
  intros S. induction l as [|x l IH]; [reflexivity|]. cbn [filter]. destruct (Q x) eqn:E; cbn [filter]; rewrite IH; [reflexivity|].
  destruct (P x) eqn:F; [|reflexivity]. apply S in F. congruence.
Qed.
Lemma level_same w lv lv' c d : fst (main w lv c d) = fst (main w lv' c d) /\
  filter complaint (snd (main w lv c d)) = filter complaint (snd (main w lv' c d)).
Proof.
  assert (F : forall lv l, filter complaint (filter (let_through lv) l) = filter complaint l).
  { intros l0 l. apply filter_filter. intros [v| |a b|e|n s]; cbn; try discriminate; reflexivity. }
  assert (B : forall b : bool, filter complaint (if b then [Blank] else []) = []) by (intros []; reflexivity).
  unfold main. destruct (perform w c d) as [[d1 o] said]. destruct o as [|e|p|]; cbn [fst snd]; split; try reflexivity; rewrite ?filter_app, ?F, ?B; reflexivity.
Qed.
Lemma all_through lv l : lv <> Quiet -> filter (let_through lv) l = l.
Proof. intros N. induction l as [|i l IH]; [reflexivity|]. cbn [filter]. rewrite IH. destruct i, lv; try reflexivity; contradiction. Qed.
Lemma verbose_normal w c d : main w Verbose c d = main w Normal c d.
Proof. unfold main. destruct (perform w c d) as [[d1 o] said]. now rewrite !all_through by discriminate. Qed.

Definition quiet_ok (l : list note) : Prop := forall i, In i l -> is_log i = true \/ complaint i = true.
Lemma qo_app l l' : quiet_ok l -> quiet_ok l' -> quiet_ok (l ++ l').
Proof. intros A B i I. apply in_app_iff in I. destruct I; auto. Qed.
Lemma qo_logs l : (forall i, In i l -> is_log i = true) -> quiet_ok l.
Proof. intros A i I. left. now apply A. Qed.
Lemma source_log_logs L fs root name s d i : In i (source_log L fs root name s d) -> is_log i = true.
Proof.
  unfold source_log. cbn zeta. destruct (lookup (join_path root s) d) as [[|l|]|]; destruct (lookup (join_path root s ++ [lit "Cargo.toml"]) d); intros I;
    repeat match type of I with In _ (if ?x then _ else _) => destruct x | In _ (match ?x with _ => _ end) => destruct x | In _ [] => destruct I | In _ (Log _ :: _) => destruct I as [<-|I]; [reflexivity|] end.
Qed.
Lemma sources_qo js ld lg name srcs : (forall n s d i, In i (lg n s d) -> is_log i = true) -> forall seen d, quiet_ok (sources_say js ld lg name srcs seen d).
Proof.
  intros G. induction srcs as [|s srcs IH]; intros seen d; cbn [sources_say]; [intros i []|]. destruct (skip_source js s).
  - intros i [<-|I]; [now left|now apply (IH seen d)].
  - apply qo_app; [apply qo_logs; intros i; apply G|]. destruct (ld name s d) as [d' [ps| |]]; try (intros i []). apply qo_app; [|apply IH]. destruct seen; [intros i []|]. intros i [<-|[]]. now right.
Qed.
Lemma plugins_qo js ld lg deps : (forall n s d i, In i (lg n s d) -> is_log i = true) -> forall d, quiet_ok (plugins_say js ld lg deps d).
Proof.
  intros G. induction deps as [|[name src] deps IH]; intros d; cbn [plugins_say]; [intros i []|]. destruct (split_char 59%N src) as [h r].
  apply qo_app; [now apply sources_qo|]. destruct (load_sources js ld name (h :: r) d) as [d1 [ps| |]]; try (intros i []). apply IH.
Qed.
Lemma start_qo w manifest output mode d : quiet_ok (snd (start w manifest output mode d)).
Proof.
  unfold start. cbn zeta. destruct (lookup _ d) as [e|]; [|intros i []]. destruct (match e with EFile b => from_utf8 b | _ => None end) as [t|]; [|intros i []].
  destruct (w_toml w t) as [r deps|[[l c]|] m]; try (intros i []). destruct (load_plugins _ _ deps d) as [d1 [ps| |]]; cbn [snd]; try (apply plugins_qo; intros; now apply (source_log_logs _ _ _ _ _ _ _ H)).
  apply qo_app; [apply plugins_qo; intros; now apply (source_log_logs _ _ _ _ _ _ _ H)|]. destruct ps; [intros i []|intros i [<-|[]]; now left].
Qed.
Lemma quiet_only w c d : (forall n, c <> CmdBench n) -> Forall (fun i => complaint i = true) (snd (main w Quiet c d)).
Proof.
  intros NB. assert (Q : quiet_ok (snd (perform w c d))).
  { destruct c as [manifest output|name g|iters|]; cbn [perform].
    - unfold build_command. cbn zeta. pose proof (start_qo w manifest output (lit "production") d) as S. destruct (start w manifest output _ d) as [[d1 [c|e|p]] said]; cbn [snd] in *; try exact S.
      destruct (cli_build _ _ c d1) as [[c' d2] r]. cbn [snd]. apply qo_app; [exact S|]. apply qo_logs. intros i. apply build_says_log.
    - unfold new_command. destruct (new_site _ _ _ _ _ _ _ _) as [d' [u| | |]]; cbn [snd]; [intros i [<-|[]]; now left|intros i []..].
    - now destruct (NB iters).
    - unfold clean_command. cbn zeta. destruct (clean _ _ d) as [d' []]; intros i []. }
  unfold main. destruct (perform w c d) as [[d1 o] said]. cbn [snd] in Q.
  assert (F : Forall (fun i => complaint i = true) (filter (let_through Quiet) said)).
  { apply Forall_forall. intros i I. apply filter_In in I. destruct I as [I L]. destruct (Q i I) as [X|X]; [|exact X]. destruct i; discriminate. }
  assert (X : existsb is_log (filter (let_through Quiet) said) = false).
  { clear - Q. induction said as [|i l IH]; [reflexivity|]. cbn [filter]. assert (Q' : quiet_ok l) by (intros j J; apply Q; now right). destruct i; cbn; auto. }
  destruct o as [|e|p|]; cbn [snd]; try exact F. rewrite X. cbn [app]. apply Forall_app. split; [exact F|]. now repeat constructor.
Qed.

(** ** Errors shown by a run that succeeds *)
Lemma sources_complain js ld lg name : (forall n s d i, In i (lg n s d) -> is_log i = true) -> forall srcs seen d d1 ps i,
  load_sources js ld name srcs d = (d1, LOk ps) -> In i (sources_say js ld lg name srcs seen d) -> complaint i = true ->
  exists s a b, i = PluginReport name s /\ srcs = a ++ s :: b /\ b <> [].
Proof.
  intros G. induction srcs as [|s srcs IH]; intros seen d d1 ps i L I C; [destruct I|]. cbn [sources_say load_sources] in *. destruct (skip_source js s).
  - destruct I as [<-|I]; [discriminate|]. destruct (IH seen d d1 ps i L I C) as (s' & a & b & -> & -> & N). now exists s', (s :: a), b.
  - apply in_app_iff in I. destruct I as [I|I]; [apply G in I; destruct i; discriminate|]. destruct (ld name s d) as [d' [ps'| |]]; try destruct I.
    apply in_app_iff in I. destruct I as [I|I].
    + destruct seen; [destruct I|]. destruct I as [<-|[]]. exists s, [], srcs. split; [reflexivity|]. split; [reflexivity|]. intros ->. discriminate.
    + destruct (IH true d' d1 ps i L I C) as (s' & a & b & -> & -> & N). now exists s', (s :: a), b.
Qed.
Lemma plugins_complain js ld lg : (forall n s d i, In i (lg n s d) -> is_log i = true) -> forall deps d d1 ps i,
  load_plugins js ld deps d = (d1, LOk ps) -> In i (plugins_say js ld lg deps d) -> complaint i = true ->
  exists name s, i = PluginReport name s /\ not_last_source deps name s.
Proof.
  intros G. induction deps as [|[name src] deps IH]; intros d d1 ps i L I C; [destruct I|]. cbn [plugins_say load_plugins] in *.
  pose proof (split_joined 59%N src) as J. pose proof (split_char_spec 59%N src) as F. destruct (split_char 59%N src) as [h r] eqn:SC. destruct F as [F1 F2].
  destruct (load_sources js ld name (h :: r) d) as [d2 [ps1| |]] eqn:LS; try discriminate. apply in_app_iff in I. destruct I as [I|I].
  - destruct (sources_complain js ld lg name G _ _ _ _ _ _ LS I C) as (s & a & b & -> & E & N). exists name, s. split; [reflexivity|].
    exists h, r, a, b. split; [left; now rewrite J|]. now repeat split.
  - destruct (load_plugins js ld deps d2) as [d3 [ps2| |]] eqn:LP; try discriminate. destruct (IH _ _ _ _ LP I C) as (n' & s & -> & (h' & r' & a & b & I' & X)). exists n', s. split; [reflexivity|].
    exists h', r', a, b. split; [now right|exact X].
Qed.
Lemma start_complain w manifest output mode d d1 c said i : start w manifest output mode d = (d1, SOk c, said) -> In i said -> complaint i = true ->
  exists r deps name s, manifest_says w (join_path (w_cwd w) manifest) d r deps /\ i = PluginReport name s /\ not_last_source deps name s.
Proof.
  unfold start. cbn zeta. destruct (lookup (join_path _ _) d) as [e|] eqn:LK; [|discriminate]. destruct (match e with EFile b => from_utf8 b | _ => None end) as [t|] eqn:U; [|discriminate].
  destruct e as [b|l|]; try discriminate.
  destruct (w_toml w t) as [r deps|[[l0 c0]|] m] eqn:TM; try discriminate. destruct (load_plugins _ _ deps d) as [d2 [ps| |]] eqn:LP; try discriminate.
  intros E I C. apply pair_equal_spec in E. destruct E as [E E2]. subst said. apply in_app_iff in I. destruct I as [I|I].
  - destruct (plugins_complain _ _ _ (fun n s d => source_log_logs _ _ _ n s d) _ _ _ _ _ LP I C) as (name & s & -> & N). exists r, deps, name, s. split; [|now split].
    exists b, t. split; [unfold what; now rewrite LK|]. split; [now apply decoding|exact TM].
  - destruct ps; [destruct I|destruct I as [<-|[]]; discriminate].
Qed.
Lemma success_complains w lv c d d' items i : main w lv c d = (d', Exit 0, items) -> In i items -> complaint i = true ->
  exists p r deps name s, manifest_of w c p /\ manifest_says w p d r deps /\ i = PluginReport name s /\ not_last_source deps name s.
Proof.
  unfold main. intros E I C. destruct (perform w c d) as [[d1 o] said] eqn:P. destruct o as [|e|p|]; try discriminate. injection E as <- <-.
  apply filter_In in I. destruct I as [I _].
  destruct c as [manifest output|name g|iters|]; cbn [perform] in P.
  - unfold build_command in P. cbn zeta in P. destruct (start w manifest output _ d) as [[d2 [c|e|p]] said'] eqn:S; try (cbn in P; discriminate).
    destruct (cli_build _ _ c d2) as [[c' d3] r]. injection P as <- _ <-. apply in_app_iff in I. destruct I as [I|I]; [|apply build_says_log in I; destruct i; discriminate].
    destruct (start_complain _ _ _ _ _ _ _ _ _ S I C) as (r0 & deps & name & s & A). exists (join_path (w_cwd w) manifest), r0, deps, name, s. split; [now apply (output_meant (Context (stuart_new config_default []) [] [] [] (w_cwd w) manifest))|exact A].
  - unfold new_command in P. destruct (new_site _ _ _ _ _ _ _ _) as [d2 [u| | |]]; try discriminate. injection P as <- <-. destruct I as [<-|[]]. discriminate.
  - unfold bench_command in P. cbn zeta in P. destruct (start w _ _ _ d) as [[d2 [c|e|p]] said'] eqn:S; try (cbn in P; discriminate).
    destruct (parse_usize iters) as [n|]; [|cbn in P; discriminate]. destruct (bench_loop _ _ _ _ _ _) as [d3 r]. injection P as <- _ <-.
    apply in_app_iff in I. destruct I as [I|I]; [destruct (start_complain _ _ _ _ _ _ _ _ _ S I C) as (r0 & deps & name & s & A); exists (w_cwd w ++ [lit "stuart.toml"]), r0, deps, name, s; split; [reflexivity|exact A]|]. exfalso.
    destruct I as [<-|I]; [discriminate|]. revert I C. generalize (N.to_nat n) 0 c d2. induction n0 as [|k IH]; intros j c' d' I C; cbn [bench_says] in I.
    + cbn in I. destruct I as [<-|[<-|[<-|[<-|[<-|[]]]]]]; discriminate.
    + destruct (cli_build _ _ c' d') as [[c2 d4] []]; try (now destruct I). apply in_app_iff in I. destruct I as [[<-|[]]|I]; [discriminate|]. apply in_app_iff in I. destruct I as [I|I]; [|now apply (IH _ _ _ I)].
      destruct (N.eqb _ n); [destruct I as [<-|[]]; discriminate|destruct I].
  - unfold clean_command in P. cbn zeta in P. destruct (clean _ _ d) as [d2 []]; [|discriminate]. injection P as <- <-. destruct I.
Qed.

(** ** Starting *)
Lemma join_meant base arg q : join_path base arg = q <-> meant base arg q.
Proof. exact (output_meant (Context (stuart_new config_default []) [] [] [] base arg) q). Qed.
Lemma start_ok w manifest output mode d dir name r deps d0 ps : meant (w_cwd w) manifest (dir ++ [name]) ->
  manifest_says w (dir ++ [name]) d r deps ->
  loads_all (lo_js (w_loader w)) (load_from_source (w_loader w) (w_load_faults w) dir) deps d d0 ps ->
  exists said, start w manifest output mode d = (d0, SOk (init r ps dir output mode d0), said).
Proof.
  intros M (b & t & W & U & T) L. apply join_meant in M. apply decoding in U. apply plugins_loaded in L. unfold start. cbn zeta. rewrite M, removelast_last.
  unfold what in W. destruct (lookup (dir ++ [name]) d) as [[b'|l|]|]; try discriminate. injection W as ->. rewrite U, T, L. eexists. reflexivity.
Qed.
Lemma loads_none js ld d : loads_all js ld [] d d [].
Proof. constructor. Qed.
Lemma main_build w lv manifest output d dir name r deps d0 ps : meant (w_cwd w) manifest (dir ++ [name]) ->
  manifest_says w (dir ++ [name]) d r deps ->
  loads_all (lo_js (w_loader w)) (load_from_source (w_loader w) (w_load_faults w) dir) deps d d0 ps ->
  forall c' d' x, cli_build (machine_of w (dir ++ [name]) output (lit "production")) (w_build_faults w 0) (init r ps dir output (lit "production") d0) d0 = (c', d', x) ->
  match x with
  | COk => exists items, main w lv (CmdBuild manifest output) d = (d', Exit 0, items)
  | CErr e => exists items, main w lv (CmdBuild manifest output) d = (d', Exit 1, items ++ [Report (main_error_of e)])
  | CPanic _ => exists items, main w lv (CmdBuild manifest output) d = (d', Exit 101, items)
  | CFuel => exists items, main w lv (CmdBuild manifest output) d = (d', Runs, items)
  end.
Proof.
  intros M S L c' d' x B. destruct (start_ok w manifest output (lit "production") d dir name r deps d0 ps M S L) as [said E]. apply join_meant in M.
  unfold main, perform, build_command. cbn zeta. rewrite E, M, B. destruct x; cbn [outcome_of]; try (eexists; reflexivity). eexists. rewrite app_assoc. reflexivity.
Qed.
Lemma main_build_inv w lv manifest output d dir name r deps d0 ps d' items : meant (w_cwd w) manifest (dir ++ [name]) ->
  manifest_says w (dir ++ [name]) d r deps ->
  loads_all (lo_js (w_loader w)) (load_from_source (w_loader w) (w_load_faults w) dir) deps d d0 ps ->
  main w lv (CmdBuild manifest output) d = (d', Exit 0, items) ->
  exists c', cli_build (machine_of w (dir ++ [name]) output (lit "production")) (w_build_faults w 0) (init r ps dir output (lit "production") d0) d0 = (c', d', COk).
Proof.
  intros M S L E. destruct (cli_build (machine_of w (dir ++ [name]) output (lit "production")) (w_build_faults w 0) (init r ps dir output (lit "production") d0) d0) as [[c' d2] x] eqn:B.
  pose proof (main_build w lv manifest output d dir name r deps d0 ps M S L c' d2 x B) as X. destruct x; destruct X as [it X]; rewrite E in X; try discriminate. exists c'. now injection X as ->.
Qed.

(** ** Building and cleaning *)
Lemma saved_dir st p d d3 out : st_output st = Some out -> tame_tree (st_config st) out -> save None st p d = (d3, Ok tt) -> exists l, lookup p d3 = Some (EDir l).
Proof.
  intros O T SV. unfold save in SV. rewrite O in SV. destruct out as [|name ch src]; [discriminate|]. cbn [save_ops] in SV.
  destruct (tame_saves_all (st_config st) ch (fun c m I J => T ch c m eq_refl I J) []) as [l L]. apply saves_ops with (p := p) in L. rewrite app_nil_r in L. rewrite L in SV.
  destruct (run_ops None _ d) as [d0 ok] eqn:R. destruct ok; [|discriminate]. injection SV as ->. apply run_ops_cons in R. destruct R as (f1 & e1 & R1 & R). apply run_ops_cons in R. destruct R as (f2 & e2 & R2 & R).
  destruct (ops_below p l f2 e2 [] d3 (fresh_dir _ _ _ _ R1 R2) R) as (l1 & _ & Q). now exists l1.
Qed.
Lemma build_effect m c d c1 d1 : cli_build m no_faults c d = (c1, d1, COk) -> idle_scripts m c -> inward_project c d ->
  lookup (cx_dir c ++ [lit "temp"]) d = None -> apart (output_dir c) (cx_dir c ++ [lit "metadata.json"]) ->
  let meta := cx_dir c ++ [lit "metadata.json"] in
  what (output_dir c) d1 = KDir /\ (what meta d1 = what meta d \/ exists b, what meta d1 = KFile b) /\
  forall q, ~ above (output_dir c) q -> q <> meta -> what q d1 = what q d.
Proof.
  cbn zeta. intros B ID IP NT A4. unfold cli_build in B. rewrite (idle_ran m c (cx_pre c) d ID) in B by (intros x X; apply in_app_iff; now left).
  destruct (build_and_merge m c d) as [st r] eqn:BM. destruct r as [[]| | |]; try discriminate. cbn [fl_temp fl_save fl_meta no_faults] in B.
  assert (RT : remove_temp None (cx_dir c ++ [lit "temp"]) d = d).
  { unfold remove_temp, rmtree. destruct (cx_dir c ++ [lit "temp"]); [reflexivity|]. now rewrite NT. }
  rewrite RT in B. destruct (merged_tame _ _ _ _ BM IP) as (out & O & T). fold (output_dir c) in B.
  destruct (save None st (output_dir c) d) as [d3 r] eqn:SV. destruct r as [[]| | |]; try discriminate.
  assert (SO := save_outside None st (output_dir c) d out O T). rewrite SV in SO. cbn [fst] in SO.
  destruct (saved_dir _ _ _ _ _ O T SV) as [l LD].
  set (meta := cx_dir c ++ [lit "metadata.json"]) in *.
  assert (MT : exists d4, (if cf_meta (st_config st) then save_metadata (m_ser m) None st meta d3 else (d3, Ok tt)) = (d4, Ok tt) /\
    (forall q, q <> meta -> what q d4 = what q d3) /\ (d4 = d3 \/ exists b, what meta d4 = KFile b)).
  { destruct (cf_meta (st_config st)); [|exists d3; repeat split; now left].
    destruct (save_metadata (m_ser m) None st meta d3) as [d4 r] eqn:SM. destruct r as [[]| | |]; try discriminate. exists d4. split; [reflexivity|]. split; [exact (write_meta _ _ _ _ _ _ SM)|].
    right. unfold save_metadata in SM. destruct (metadata_value st) as [v| | |] eqn:MV; try discriminate. destruct (run_ops None [OWrite meta (m_ser m v)] d3) as [d0 ok] eqn:R. destruct ok; [|discriminate]. injection SM as ->.
    cbn [run_ops] in R. destruct (run_op (OWrite meta (m_ser m v)) d3) as [d5|] eqn:RO; [|discriminate]. injection R as ->. exists (m_ser m v).
    destruct (write_effect _ _ _ _ RO) as [_ WE]. rewrite WE. destruct (path_eq meta meta); [reflexivity|contradiction]. }
  destruct MT as (d4 & MT & ML & MC). rewrite MT in B. rewrite (idle_ran m c (cx_post c) d4 ID) in B by (intros x X; apply in_app_iff; now right).
  injection B as <- <-. split; [|split].
  - rewrite ML; [unfold what; now rewrite LD|]. intros E. apply (proj1 A4). exists []. now rewrite app_nil_r, E.
  - destruct MC as [-> |MC]; [left|now right]. apply SO. exact (proj1 A4).
  - intros q NA NQ. rewrite ML by exact NQ. now apply SO.
Qed.
(** Nothing is under something that is not there. *)
Lemma below_none p r d : what p d = KNone -> what (p ++ r) d = KNone.
Proof.
  intros W. apply what_none in W. apply what_none. revert p W. induction r as [|k r IH]; intros p W; [now rewrite app_nil_r|].
  change (k :: r) with ([k] ++ r). rewrite app_assoc. apply IH. clear IH. rewrite DiskFacts.lookup_app. now rewrite W.
Qed.
Lemma init_idle w p r ps dir output mode d0 m' : what (dir ++ [lit "scripts"]) d0 = KNone \/ (forall env n x, w_scripts w env n x = (x, ScriptOk)) ->
  m' = machine_of w p output mode -> idle_scripts m' (init r ps dir output mode d0).
Proof. intros [W|I] -> n x J; [|apply I]. apply what_none in W. unfold init in J. cbn [cx_pre cx_post] in J. rewrite W in J. destruct J. Qed.
Lemma undo w lv lv' dir r d d1 items : untroubled w -> w_cwd w = dir ->
  what (dir ++ [lit "scripts"]) d = KNone \/ (forall env n x, w_scripts w env n x = (x, ScriptOk)) ->
  manifest_says w (dir ++ [lit "stuart.toml"]) d r [] -> ent_distinct d ->
  names_at inward (dir ++ [lit "content"]) d -> names_at plain (dir ++ [lit "static"]) d ->
  (forall n, In n [lit "dist"; lit "_build"; lit "metadata.json"; lit "temp"] -> what (dir ++ [n]) d = KNone) ->
  main w lv (CmdBuild (lit "stuart.toml") (lit "dist")) d = (d1, Exit 0, items) ->
  exists d2, main w lv' CmdClean d1 = (d2, Exit 0, []) /\ forall q, what q d2 = what q d.
Proof.
  intros U CW SC MS D NI NP NG M.
  assert (ME : meant (w_cwd w) (lit "stuart.toml") (dir ++ [lit "stuart.toml"])) by (apply join_meant; now rewrite CW).
  destruct (main_build_inv w lv _ _ d dir _ r [] d [] d1 items ME MS (loads_none _ _ _) M) as [c1 B]. rewrite (proj1 U 0) in B.
  set (m := machine_of w (dir ++ [lit "stuart.toml"]) (lit "dist") (lit "production")) in *. set (c := init r [] dir (lit "dist") (lit "production") d) in *.
  assert (ID : idle_scripts m c) by (apply (init_idle w _ _ _ _ _ _ _ m SC eq_refl)).
  assert (OD : output_dir c = dir ++ [lit "dist"]) by reflexivity. assert (CD : cx_dir c = dir) by reflexivity.
  assert (LT : lookup (cx_dir c ++ [lit "temp"]) d = None) by (apply what_none; apply NG; cbn; tauto).
  assert (IP : inward_project c d).
  { split; [exact NI|]. split; [exact NP|]. split; [|reflexivity]. intros e E. rewrite LT in E. discriminate. }
  assert (AP : forall n, n <> lit "dist" -> apart (output_dir c) (dir ++ [n])) by (intros n N; rewrite OD; apply siblings_apart; congruence).
  destruct (build_effect m c d c1 d1 B ID IP LT) as (E1 & E2 & E3); [rewrite CD; apply AP; discriminate|].
  destruct (build_again m c d c1 d1 c B (or_introl eq_refl) ID D IP LT) as (_ & _ & _ & D1 & _); [repeat (apply Forall_cons; [apply AP; discriminate|]); constructor|].
  rewrite CD, OD in *.
  destruct (clean_works (w_clean_faults w) dir d1 (proj1 (proj2 U))) as [d2 CL].
  - rewrite E3; [destruct MS as (b & t & W & _); rewrite W; discriminate| |].
    + rewrite <- OD. apply AP. discriminate.
    + intros E. apply app_inv_head in E. discriminate.
  - now right.
  - left. rewrite E3; [apply NG; cbn; tauto| |].
    + rewrite <- OD. apply AP. discriminate.
    + intros E. apply app_inv_head in E. discriminate.
  - destruct E2 as [E2|E2]; [left; rewrite E2; apply NG; cbn; tauto|now right].
  - exists d2. split; [unfold main, perform, clean_command; cbn zeta; now rewrite CW, CL|].
    intros q. assert (X : generated dir q \/ ~ generated dir q).
    { assert (DA : forall p q : path, above p q \/ ~ above p q).
      { clear. induction p as [|k p IH]; intros q; [left; now exists q|]. destruct q as [|k' q]; [right; intros [r E]; discriminate|]. destruct (list_eq_dec N.eq_dec k k') as [->|N].
        - destruct (IH q) as [[r ->]|N]; [left; now exists r|right]. intros [r E]. injection E as ->. apply N. now exists r.
        - right. intros [r E]. injection E as <- _. contradiction. }
      unfold generated. destruct (DA (dir ++ [lit "dist"]) q); [tauto|]. destruct (DA (dir ++ [lit "_build"]) q); [tauto|]. destruct (DA (dir ++ [lit "metadata.json"]) q); tauto. }
    destruct X as [G|NGq].
    + rewrite (clean_gone _ _ _ _ D1 CL q G). symmetry. destruct G as [[s ->]|[[s ->]|[s ->]]]; apply below_none; apply NG; cbn; tauto.
    + pose proof (clean_same (w_clean_faults w) dir d1 q NGq) as CS. rewrite CL in CS. cbn [fst] in CS. rewrite CS. apply E3.
      * intros A. apply NGq. now left.
      * intros ->. apply NGq. right. right. exists []. now rewrite app_nil_r.
Qed.

(** ** Whole projects *)
Lemma main_project w lv manifest output d dir name r deps d0 ps content statics out : untroubled w -> meant (w_cwd w) manifest (dir ++ [name]) ->
  manifest_says w (dir ++ [name]) d r deps ->
  loads_all (lo_js (w_loader w)) (load_from_source (w_loader w) (w_load_faults w) dir) deps d d0 ps ->
  what (dir ++ [lit "scripts"]) d0 = KNone -> cf_meta (to_config r) = false -> flat_map pl_parsers ps = [] ->
  lookup (dir ++ [lit "content"]) d0 = Some content ->
  lookup (dir ++ [lit "static"]) d0 = Some statics \/ (lookup (dir ++ [lit "static"]) d0 = None /\ statics = EDir []) ->
  what (dir ++ [lit "temp"]) d0 = KNone -> ent_distinct d0 -> names_at inward (dir ++ [lit "content"]) d0 -> names_at plain (dir ++ [lit "static"]) d0 ->
  meant dir output out -> out <> [] -> what (parent out) d0 = KDir -> what out d0 = KNone \/ what out d0 = KDir ->
  let vars := page_vars (w_osenv w) (lit "production") in
  site_in_order (w_host w) ps vars content -> static_in_order statics ->
  no_conflict (w_host w) ps vars content statics -> no_overlap (w_host w) ps vars content (to_config r) statics ->
  exists d' items, main w lv (CmdBuild manifest output) d = (d', Exit 0, items) /\
    forall q o, what (out ++ q) d' = KFile o <-> file_at (w_host w) ps vars content (to_config r) statics q o.
Proof.
  intros U M MS L SC CM NP LC LS LT D NI NS MO NE PD WO vars Or SO NC NO. apply join_meant in MO.
  set (m := machine_of w (dir ++ [name]) output (lit "production")). set (c := init r ps dir output (lit "production") d0).
  assert (OD : output_dir c = out) by exact MO.
  apply what_none in SC. apply what_none in LT.
  destruct (project_built m c d0 content statics) as (c' & d' & B & F); try assumption.
  - unfold c, init. cbn [cx_pre]. now rewrite SC.
  - unfold c, init. cbn [cx_post]. now rewrite SC.
  - split; [exact NI|]. split; [exact NS|]. split; [|exact NP]. intros e E. change (cx_dir c) with dir in E. rewrite LT in E. discriminate.
  - rewrite OD. exact NE.
  - rewrite OD. exact PD.
  - rewrite OD. exact WO.
  - rewrite <- (proj1 U 0) in B. pose proof (main_build w lv manifest output d dir name r deps d0 ps M MS L _ _ _ B) as X. cbn beta iota in X. destruct X as [items X].
    exists d', items. split; [exact X|]. intros q o. rewrite <- OD. apply F.
Qed.
Lemma known_scalars g name : scalars name -> (forall n e, g_name g = Some n -> g_email g = Some e -> scalars n /\ scalars e) -> scalars (new_manifest g name).
Proof.
  assert (L : forall s, forallb (fun c => N.ltb c 128) (lit s) = true -> scalars (lit s)).
  { intros s F. rewrite forallb_forall in F. apply Forall_forall. intros c I. left. apply F in I. apply N.ltb_lt in I. lia. }
  assert (LF : scalars [c_lf]) by (constructor; [left; reflexivity|constructor]).
  intros SN SG. unfold new_manifest. fold (scalars [c_lf]) in *. unfold scalars in *.
  assert (MID : Forall (fun c => (c < 55296 \/ 57344 <= c < 1114112)%N) (match g_name g with Some n => match g_email g with Some e => [c_lf] ++ lit "author = """ ++ n ++ lit " <" ++ e ++ lit ">""" | None => [] end | None => [] end)).
  { destruct (g_name g) as [n|]; [|constructor]. destruct (g_email g) as [e|]; [|constructor]. destruct (SG n e eq_refl eq_refl) as [A B].
    repeat (apply Forall_app; split); try exact LF; try assumption; now apply L. }
  repeat (apply Forall_app; split); try exact LF; try assumption; now apply L.
Qed.
Lemma main_new w l1 l2 l3 png toml no_git name dir d : untroubled w -> w_template w = basic_site png toml ->
  meant (w_cwd w) name dir -> dir <> [] -> what dir d = KNone -> what (parent dir) d = KDir ->
  no_git = true \/ (only_git (g_init (w_git w)) /\ relative name) -> ent_distinct d ->
  toml_plain name -> scalars name ->
  (forall n e, g_name (w_git w) = Some n -> g_email (w_git w) = Some e -> (toml_plain n /\ scalars n) /\ toml_plain e /\ scalars e) ->
  let author := known_author (g_name (w_git w)) (g_email (w_git w)) in
  (forall t, site_manifest t name author -> w_toml w t = TomlOk (RawConfig name author None) []) ->
  exists d1 d2 d3 n1 n2, main w l1 (CmdNew name no_git) d = (d1, Exit 0, n1) /\
    main (cd dir w) l2 (CmdBuild (lit "stuart.toml") (lit "dist")) d1 = (d2, Exit 0, n2) /\
    (forall q o, what (dir ++ [lit "dist"] ++ q) d2 = KFile o <-> In (q, o) (fresh_files png)) /\
    main (cd dir w) l3 CmdClean d2 = (d3, Exit 0, []) /\ forall q, what q d3 = what q d1.
Proof.
  intros U T M NE W P G D TN SN SG author TO. apply join_meant in M.
  assert (MR : site_manifest (new_manifest (w_git w) name) name author).
  { apply manifest_read; [exact TN|]. intros n e E1 E2. destruct (SG n e E1 E2) as [[A _] [B _]]. now split. }
  set (r := RawConfig name author None).
  assert (NM := new_made png toml (w_git w) no_git (w_cwd w) name d). cbn zeta in NM. rewrite M in NM. destruct (NM NE W P G) as (d1 & N & SO & WN & _ & LC & LS & D1). clear NM.
  assert (NB := new_builds png toml (w_git w) no_git (w_cwd w) name d (machine_of (cd dir w) (dir ++ [lit "stuart.toml"]) (lit "dist") (lit "production")) r (lit "production")).
  cbn zeta in NB. rewrite M in NB. destruct (NB NE W P G D eq_refl) as (d1' & c' & d2 & N' & B & F). clear NB. rewrite N in N'. injection N' as <-.
  assert (W1 : forall k s, text_eqb k (lit ".git") = false -> what (dir ++ k :: s) d1 = what (k :: s) (NewFacts.fresh (w_git w) no_git name png)).
  { intros k s E. apply WN. intros [s' A]. injection A as ->. now rewrite text_eqb_refl in E. }
  assert (MS : manifest_says (cd dir w) (dir ++ [lit "stuart.toml"]) d1 r []).
  { exists (enc (new_manifest (w_git w) name)), (new_manifest (w_git w) name). split; [|split].
    - rewrite W1 by reflexivity. destruct no_git; reflexivity.
    - apply encoding. apply known_scalars; [exact SN|]. intros n e E1 E2. destruct (SG n e E1 E2) as [[_ A] [_ C]]. now split.
    - now apply TO. }
  assert (U' : untroubled (cd dir w)) by exact U.
  assert (ME : meant (w_cwd (cd dir w)) (lit "stuart.toml") (dir ++ [lit "stuart.toml"])) by now apply join_meant.
  rewrite <- (proj1 U' 0) in B.
  pose proof (main_build (cd dir w) l2 _ _ d1 dir _ r [] d1 [] ME MS (loads_none _ _ _) _ _ _ B) as X. cbn beta iota in X. destruct X as [items X].
  assert (NG : forall n, In n [lit "dist"; lit "_build"; lit "metadata.json"; lit "temp"; lit "scripts"] -> what (dir ++ [n]) d1 = KNone).
  { intros n I. rewrite W1.
    - destruct I as [<-|[<-|[<-|[<-|[<-|[]]]]]]; destruct no_git; reflexivity.
    - destruct I as [<-|[<-|[<-|[<-|[<-|[]]]]]]; reflexivity. }
  destruct (undo (cd dir w) l2 l3 dir r d1 d2 items U' eq_refl (or_introl (NG (lit "scripts") ltac:(cbn; tauto))) MS (D1 D)) as (d3 & CL & Q).
  - intros e L. rewrite LC in L. destruct no_git; injection L as <-; repeat first [constructor|discriminate|now vm_compute; intuition discriminate].
  - intros e L. rewrite LS in L. destruct no_git; injection L as <-; repeat first [constructor|discriminate|now vm_compute; intuition discriminate].
  - intros n I. apply NG. cbn in *. tauto.
  - exact X.
  - exists d1, d2, d3, (filter (let_through l1) [Log (lit "Created")]), items. split; [|repeat split; try assumption; apply F].
    unfold main, perform, new_command. rewrite T, (proj1 (proj2 (proj2 U))), (proj2 (proj2 (proj2 U))), N. reflexivity.
Qed.
(** ** Failures *)
Lemma cli_errors m f c d c' d' e : cx_pre c = [] -> cx_post c = [] -> cli_build m f c d = (c', d', CErr e) -> exists x, e = CE x.
Proof.
  intros EP EQ B. unfold cli_build in B. rewrite EP, EQ in B. cbn [run_scripts] in B. destruct (build_and_merge m c d) as [st r]. destruct r as [[]|x| |]; try discriminate; [|injection B as _ _ <-; now exists x].
  destruct (save _ _ _ _) as [d3 r]. destruct r as [[]|x| |]; try discriminate; [|injection B as _ _ <-; now exists x].
  destruct (if cf_meta (st_config st) then _ else _) as [d4 r]. destruct r as [[]|x| |]; try discriminate. injection B as _ _ <-; now exists x.
Qed.
Lemma failed_same w lv manifest output d dir name d' items e : meant (w_cwd w) manifest (dir ++ [name]) ->
  (forall r deps, manifest_says w (dir ++ [name]) d r deps -> deps = []) -> what (dir ++ [lit "scripts"]) d = KNone ->
  main w lv (CmdBuild manifest output) d = (d', Exit 1, items ++ [Report e]) -> e <> ME (E_Fs FE_Write) -> d' = d.
Proof.
  intros M ND SC R NE. apply what_none in SC.
  assert (C : (exists r, manifest_says w (dir ++ [name]) d r []) \/ exists x, start w manifest output (lit "production") d = (d, SErr x, [])).
  { pose proof M as M'. apply join_meant in M'. unfold start. cbn zeta. rewrite M'. destruct (lookup (dir ++ [name]) d) as [e0|] eqn:L; [|right; eexists; reflexivity].
    destruct e0 as [b|l|]; try (right; eexists; reflexivity). destruct (from_utf8 b) as [t|] eqn:FU; [|right; eexists; reflexivity].
    destruct (w_toml w t) as [r deps|[[l c]|] msg] eqn:T; [left|right; eexists; reflexivity|right; eexists; reflexivity].
    assert (MS : manifest_says w (dir ++ [name]) d r deps) by (exists b, t; split; [unfold what; now rewrite L|split; [now apply decoding|exact T]]).
    exists r. now rewrite (ND r deps MS) in MS. }
  destruct C as [[r MS]|[x S]].
  - destruct (cli_build (machine_of w (dir ++ [name]) output (lit "production")) (w_build_faults w 0) (init r [] dir output (lit "production") d) d) as [[c2 d2] z] eqn:B.
    pose proof (main_build w lv manifest output d dir name r [] d [] M MS (loads_none _ _ _) _ _ _ B) as X. destruct z as [|e0| |]; destruct X as [it X]; rewrite R in X; try discriminate.
    injection X as -> X. apply app_inj_tail in X. destruct X as [_ X]. injection X as ->.
    assert (EP : cx_pre (init r [] dir output (lit "production") d) = []) by (unfold init; cbn [cx_pre]; now rewrite SC).
    assert (EQ : cx_post (init r [] dir output (lit "production") d) = []) by (unfold init; cbn [cx_post]; now rewrite SC).
    destruct (cli_errors _ _ _ _ _ _ _ EP EQ B) as [y ->]. refine (error_unchanged _ _ _ _ _ _ y d B _ _).
    + intros ->. now apply NE.
    + rewrite EP. constructor.
  - unfold main, perform, build_command in R. cbn zeta in R. rewrite S in R. cbn [outcome_at_start] in R. now injection R as <-.
Qed.

(** ** What scripts are told *)
Lemma split_at c a b : match split_char c a, split_char c b with (h, r), (h', r') => split_char c (a ++ c :: b) = (h, r ++ h' :: r') end.
Proof.
  induction a as [|x a IH]; cbn [split_char app].
  - destruct (split_char c b) as [h' r']. now rewrite N.eqb_refl.
  - destruct (split_char c a) as [h r]. destruct (split_char c b) as [h' r']. rewrite IH. now destruct (N.eqb x c).
Qed.
Lemma split_lead c b h r : split_char c b = (h, r) -> split_char c (c :: b) = ([], h :: r).
Proof. intros E. cbn [split_char]. rewrite E. now rewrite N.eqb_refl. Qed.
Lemma split_shown p : p <> [] -> Forall plain p -> split_char c_slash (show_rel p) = (hd [] p, tl p).
Proof.
  induction p as [|k p IH]; intros NE F; [contradiction|]. inversion F as [|? ? P F']; subst. destruct p as [|k' p].
  - cbn [show_rel hd tl]. apply split_char_nil. apply P.
  - change (show_rel (k :: k' :: p)) with (k ++ c_slash :: show_rel (k' :: p)). pose proof (split_at c_slash k (show_rel (k' :: p))) as X. rewrite (split_char_nil c_slash k) in X by apply P.
    rewrite IH in X by (try discriminate; assumption). exact X.
Qed.
Lemma step_plain l : forall p, Forall plain l -> fold_left step_component l p = p ++ l.
Proof.
  induction l as [|k l IH]; intros p F; [now rewrite app_nil_r|]. inversion F as [|? ? P F']; subst. cbn [fold_left].
  assert (E : step_component p k = p ++ [k]).
  { unfold step_component. destruct P as (P1 & P2 & P3 & _). destruct (text_eqb k []) eqn:E1; [apply text_eqb_eq in E1; contradiction|].
    destruct (text_eqb k [c_dot]) eqn:E2; [apply text_eqb_eq in E2; contradiction|]. destruct (text_eqb k [c_dot; c_dot]) eqn:E3; [apply text_eqb_eq in E3; contradiction|]. reflexivity. }
  rewrite E, IH by assumption. now rewrite <- app_assoc.
Qed.
Lemma shown_meant base p : Forall plain p -> meant base (show_abs p) p.
Proof.
  intros F. apply join_meant. unfold join_path, show_abs. cbn [app]. destruct p as [|k p]; [reflexivity|].
  rewrite (split_lead c_slash _ k p) by (rewrite split_shown by (try discriminate; assumption); reflexivity).
  assert (S : starts_with [c_slash] (c_slash :: show_rel (k :: p)) = true) by reflexivity. rewrite S.
  change (fold_left step_component ([] :: k :: p) []) with (fold_left step_component (k :: p) []). now rewrite step_plain.
Qed.
Lemma joined_meant base dir arg q : Forall plain dir -> meant dir arg q -> meant base (join_text dir arg) q.
Proof.
  intros F M. apply join_meant in M. apply join_meant. unfold join_text. destruct (starts_with [c_slash] arg) eqn:S.
  - subst q. unfold join_path. now rewrite S.
  - assert (G : join_path base (c_slash :: show_rel dir ++ c_slash :: arg) = q /\ (dir = [] -> join_path base (c_slash :: arg) = q)).
    { subst q. unfold join_path. assert (S1 : forall t, starts_with [c_slash] (c_slash :: t) = true) by reflexivity. rewrite !S1, S. split.
      - pose proof (split_at c_slash (show_rel dir) arg) as X. destruct (split_char c_slash arg) as [h r]. destruct dir as [|k p].
        + rewrite (split_lead c_slash _ _ _ X). reflexivity.
        + rewrite split_shown in X by (try discriminate; assumption). cbn [hd tl] in X. rewrite (split_lead c_slash _ _ _ X).
          change (fold_left step_component ([] :: k :: p ++ h :: r) []) with (fold_left step_component ((k :: p) ++ h :: r) []). rewrite fold_left_app, (step_plain (k :: p)) by assumption. reflexivity.
      - intros ->. destruct (split_char c_slash arg) as [h r] eqn:X. rewrite (split_lead c_slash _ _ _ X). reflexivity. }
    destruct G as [G1 G2]. destruct dir as [|k p]; [now apply G2|]. exact G1.
Qed.
Lemma told w manifest output mode dir name out : Forall plain (dir ++ [name]) -> meant (w_cwd w) manifest (dir ++ [name]) -> meant dir output out ->
  script_vars (script_env (join_path (w_cwd w) manifest) output mode) (dir ++ [name]) dir out mode.
Proof.
  intros F M MO. apply join_meant in M. rewrite M. unfold script_env. rewrite removelast_last. pose proof F as FD. apply Forall_app in FD. destruct FD as [FD _].
  unfold script_vars, names, is_set. repeat split.
  - eexists. split; [exists []; eexists; split; [reflexivity|vm_compute; intuition discriminate]|]. intros base. now apply shown_meant.
  - eexists. split; [eexists [_]; eexists; split; [reflexivity|vm_compute; intuition discriminate]|]. intros base. now apply shown_meant.
  - eexists. split; [eexists [_; _]; eexists; split; [reflexivity|vm_compute; intuition discriminate]|]. intros base. apply joined_meant; [assumption|]. now apply join_meant.
  - eexists. split; [eexists [_; _; _]; eexists; split; [reflexivity|vm_compute; intuition discriminate]|]. intros base. now apply joined_meant.
  - eexists [_; _; _; _]. eexists. split; [reflexivity|intros []].
Qed.
Lemma told_build w manifest output dir name out : Forall plain (dir ++ [name]) -> meant (w_cwd w) manifest (dir ++ [name]) -> meant dir output out ->
  exists env, script_vars env (dir ++ [name]) dir out (lit "production") /\
    forall s, s env = w_scripts w env -> forall lv d, main (with_scripts s w) lv (CmdBuild manifest output) d = main w lv (CmdBuild manifest output) d.
Proof.
  intros F M MO. eexists. split; [exact (told w manifest output (lit "production") dir name out F M MO)|]. intros s E lv d.
  unfold main, perform, build_command. cbn zeta. change (start (with_scripts s w) manifest output (lit "production") d) with (start w manifest output (lit "production") d).
  assert (EM : machine_of (with_scripts s w) (join_path (w_cwd (with_scripts s w)) manifest) output (lit "production") = machine_of w (join_path (w_cwd w) manifest) output (lit "production")).
  { unfold machine_of. cbn [with_scripts w_scripts w_host w_ser w_osenv w_cwd]. now rewrite E. }
  rewrite EM. reflexivity.
Qed.
Lemma told_bench w iters dir : Forall plain dir -> w_cwd w = dir ->
  exists env, script_vars env (dir ++ [lit "stuart.toml"]) dir (dir ++ [lit "dist"]) (lit "benchmark") /\
    forall s, s env = w_scripts w env -> forall lv d, main (with_scripts s w) lv (CmdBench iters) d = main w lv (CmdBench iters) d.
Proof.
  intros F CW. eexists. split.
  - refine (told w (lit "stuart.toml") (lit "dist") (lit "benchmark") dir (lit "stuart.toml") (dir ++ [lit "dist"]) _ _ _).
    + apply Forall_app. split; [assumption|]. constructor; [|constructor]. repeat split; try discriminate. vm_compute. intuition discriminate.
    + apply join_meant. now rewrite CW.
    + now apply join_meant.
  - intros s E lv d. unfold main, perform, bench_command. cbn zeta. change (start (with_scripts s w) (lit "stuart.toml") (lit "dist") (lit "benchmark") d) with (start w (lit "stuart.toml") (lit "dist") (lit "benchmark") d).
    assert (EM : machine_of (with_scripts s w) (join_path (w_cwd (with_scripts s w)) (lit "stuart.toml")) (lit "dist") (lit "benchmark") = machine_of w (join_path (w_cwd w) (lit "stuart.toml")) (lit "dist") (lit "benchmark")).
    { unfold machine_of. cbn [with_scripts w_scripts w_host w_ser w_osenv w_cwd]. now rewrite E. }
    rewrite EM. reflexivity.
Qed.

(** ** Witnesses *)
Definition no_loader : loader := Loader true (fun _ => false) (fun _ _ d => (d, false)) (fun _ d => (d, false)) (fun _ => None) (fun _ => None)
  (fun _ d => (d, false)) (fun _ _ => None) (fun _ _ => Ok (Plugin (lit "p") [] [])).
Definition C76_with (deps : list (text * text)) : world := World (Host (fun _ => false) (fun t => t) None (fun _ => None)) (fun _ => []) []
  (fun _ _ d => (d, ScriptOk)) (fun _ => TomlOk (RawConfig (lit "s") None None) deps) no_loader (fun _ _ => None) (fun _ => no_faults) (fun _ => None)
  (EDir []) no_user None None [].
Definition C76_world : world := C76_with [].
Definition C76_build : command := CmdBuild (lit "stuart.toml") (lit "dist").
Definition C76_disk (s : string) : ent := EDir [(lit "stuart.toml", EFile []); (lit "p.js", EFile []);
  (lit "content", EDir [(lit "root.html", EFile (enc (lit s))); (lit "a.html", EFile [])])].
Lemma bench_loud : exists w c d d' items, main w Quiet c d = (d', Exit 0, items) /\ In (Bar 1 1) items /\ In Blank items.
Proof. exists C76_world, (CmdBench (lit "1")), (C76_disk "x"). do 2 eexists. split; [vm_compute; reflexivity|]. cbn. tauto. Qed.
Lemma fallback_complains : exists w c d d' items name s, main w Quiet c d = (d', Exit 0, items) /\ items = [PluginReport name s].
Proof. exists (C76_with [(lit "p", lit "x.js;p.js")]), C76_build, (C76_disk "x"). do 4 eexists. split; [vm_compute; reflexivity|reflexivity]. Qed.
