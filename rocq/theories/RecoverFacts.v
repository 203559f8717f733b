(** RecoverFacts.v -- building again after builds that were cut short (C95). *)

From Coq Require Import String List NArith ZArith Bool Lia.
From Verif Require Import Text Utf8 Json Base Syntax Parse Tree Interp Build Disk Cli Load New Report Main.
From Verif Require Import SpecScope SpecTree SpecDisk SpecProject SpecMain SpecRecover.
From Verif Require Import TextFacts TreeFacts PathFacts DiskFacts SaveFacts ProjectFacts CliFacts AgainFacts MainFacts ModeFacts.
Import ListNotations.

Lemma run_ops_apart_f ops q : Forall (fun o => apart (op_path o) q) ops -> forall f d, lookup q (fst (run_ops f ops d)) = lookup q d.
Proof.
  induction ops as [|o ops IH]; intros F f d; [reflexivity|]. inversion F as [|? ? F1 F2]; subst. cbn [run_ops].
  assert (G : forall f', lookup q (fst (match run_op o d with Some d' => run_ops f' ops d' | None => (d, false) end)) = lookup q d).
  { intros f'. destruct (run_op o d) as [d1|] eqn:R1; [|reflexivity]. rewrite (IH F2). now apply run_op_apart with o. }
  destruct f as [[[|k] junk]|]; [cbn [fst]; now apply update_apart|exact (G (Some (Fault k junk)))|exact (G None)].
Qed.
Lemma save_apart_f f st p d out q : st_output st = Some out -> tame_tree (st_config st) out -> apart p q -> lookup q (fst (save f st p d)) = lookup q d.
Proof.
  intros O T A. unfold save. rewrite O. destruct out as [|name ch src]; [reflexivity|]. cbn [save_ops].
  destruct (tame_saves_all (st_config st) ch (fun c m I J => T ch c m eq_refl I J) []) as [l L]. apply saves_ops with (p := p) in L. rewrite app_nil_r in L. rewrite L.
  pose proof (run_ops_apart_f (ORmTreeIfDir p :: OMkDir p :: map (op_of p) l) q) as R. destruct (run_ops f _ d) as [d0 ok] eqn:E. cbn [fst]. specialize (R ltac:(constructor; [exact A|constructor; [exact A|]];
    apply Forall_forall; intros o I; apply in_map_iff in I; destruct I as ([r [b|]] & <- & _); now apply apart_below) f d). now rewrite E in R.
Qed.
Lemma meta_keeps ser f st p d q : (apart p q -> lookup q (fst (save_metadata ser f st p d)) = lookup q d) /\ (~ above p q -> what q (fst (save_metadata ser f st p d)) = what q d).
Proof.
  unfold save_metadata. destruct (metadata_value st) as [v| | |]; try (cbn [fst]; now split). pose proof (run_ops_apart_f [OWrite p (ser v)] q) as R.
  destruct (run_ops f [OWrite p (ser v)] d) as [d0 ok] eqn:E. cbn [fst]. split.
  - intros A. specialize (R ltac:(constructor; [exact A|constructor]) f d). now rewrite E in R.
  - intros N. cbn [run_ops] in E. destruct f as [[[|k] junk]|]; [injection E as <- <-; now apply update_outside|..];
      (destruct (run_op (OWrite p (ser v)) d) as [d1|] eqn:R1; [|injection E as <- <-; reflexivity]; injection E as <- <-; destruct (write_effect _ _ _ _ R1) as [_ W]; rewrite W;
       destruct (path_eq p q) as [<-|]; [exfalso; apply N; now exists []; rewrite app_nil_r|reflexivity]).
Qed.
Lemma above_dec p q : above p q \/ ~ above p q.
Proof.
  revert p. induction q as [|k q IH]; intros [|c' p]; [left; now exists []|right; intros [r E]; discriminate|left; now exists (k :: q)|].
  destruct (list_eq_dec N.eq_dec c' k) as [->|NE]; [|right; intros H; apply above_cons in H; now destruct H]. destruct (IH p) as [H|H]; [left; now apply above_cons|right; intros X; apply above_cons in X; now destruct X].
Qed.
Lemma sibling_above dir (a b : text) q : a <> b -> above (dir ++ [a]) q -> ~ above (dir ++ [b]) q.
Proof.
  intros NE [r ->] [s E]. rewrite <- !app_assoc in E. apply app_inv_head in E. injection E as E _. congruence.
Qed.

(** One build with faults. *)
Lemma attempt_keeps m f c c' d d0 st : same_project c c' -> cx_pre c' = cx_pre c -> cx_post c' = cx_post c -> cx_output c' = cx_output c -> idle_scripts m c ->
  build_and_merge m c d0 = (st, Ok tt) -> inward_project c d0 -> what (cx_dir c ++ [lit "temp"]) d0 = KNone -> clear_way c d -> same_but_output c d0 d ->
  Forall (fun n => apart (output_dir c) (cx_dir c ++ [n])) [lit "content"; lit "static"; lit "temp"; lit "metadata.json"] ->
  clear_way c (snd (fst (cli_build m f c' d))) -> same_but_output c d0 (snd (fst (cli_build m f c' d))).
Proof.
  intros SP PR PO OU ID BM IP NT (DD & T0 & _ & _) [S1 S2] AP CW. inversion AP as [|? ? A1 AP1]; subst. inversion AP1 as [|? ? A2 AP2]; subst. inversion AP2 as [|? ? A3 AP3]; subst. inversion AP3 as [|? ? A4 _]; subst. clear AP AP1 AP2 AP3.
  destruct CW as (_ & T1 & _ & _). assert (DIR : cx_dir c' = cx_dir c) by apply SP. assert (OD : join_path (cx_dir c') (cx_output c') = output_dir c) by (unfold output_dir; now rewrite DIR, OU).
  assert (BM' : build_and_merge m c' d = (st, Ok tt)).
  { apply (bam_ok m c c' d0 d); auto. intros n [<-|[<-|[<-|[]]]]; [apply S1; now left|apply S1; right; now left|]. apply kind_none in T0, NT. congruence. }
  destruct (merged_tame _ _ _ _ BM IP) as (out & O & T). assert (Cfg : st_config st = st_config (cx_stuart c)) by (destruct (merged_output _ _ _ _ BM) as (? & _ & _ & Q1 & _); exact Q1).
  unfold cli_build in *. rewrite PR, (idle_ran m c (cx_pre c) d ID) in * by (intros x X; apply in_app_iff; now left). rewrite BM', DIR in *. rewrite <- DIR, OD, DIR in *.
  set (temp := cx_dir c ++ [lit "temp"]) in *. set (meta := cx_dir c ++ [lit "metadata.json"]) in *.
  set (d2 := remove_temp (fl_temp f) temp d) in *.
  assert (K2 : (forall q, apart temp q -> lookup q d2 = lookup q d) /\ forall q, ~ above temp q -> what q d2 = what q d).
  { unfold d2, remove_temp. destruct (fl_temp f) as [junk|]; [split; [intros q A; now apply update_apart|intros q N; now apply update_outside]|].
    unfold rmtree. destruct temp; [now split|]. destruct (lookup (t :: temp) d) as [[|l|]|]; try now split. split; [intros q A; now apply update_apart|intros q N; now apply update_outside]. }
  clearbody d2. rewrite PO in *.
  set (x3 := save (fl_save f) st (output_dir c) d2) in *.
  assert (K3 : (forall q, apart (output_dir c) q -> lookup q (fst x3) = lookup q d2) /\ forall q, ~ above (output_dir c) q -> what q (fst x3) = what q d2).
  { split; [intros q A; now apply (save_apart_f _ _ _ _ out)|exact (save_outside _ _ _ _ out O T)]. }
  clearbody x3. destruct x3 as [d3 r3]. cbn [fst] in K3.
  set (x4 := if cf_meta (st_config st) then save_metadata (m_ser m) (fl_meta f) st meta d3 else (d3, Ok tt)) in *.
  assert (K4 : (forall q, apart meta q -> lookup q (fst x4) = lookup q d3) /\ forall q, (cf_meta (st_config st) = true -> ~ above meta q) -> what q (fst x4) = what q d3).
  { unfold x4. destruct (cf_meta (st_config st)); [|now split]. split; intros q A; apply meta_keeps; auto. }
  clearbody x4. destruct x4 as [d4 r4]. cbn [fst] in K4.
  assert (FIN : forall y, (y = d3 \/ y = d4) -> what temp y = KNone -> same_but_output c d0 y).
  { intros y Y TY. split.
    - intros n I. rewrite <- (S1 n I). assert (AT : apart temp (cx_dir c ++ [n])) by (apply siblings_apart; destruct I as [<-|[<-|[]]]; discriminate).
      assert (AM : apart meta (cx_dir c ++ [n])) by (apply siblings_apart; destruct I as [<-|[<-|[]]]; discriminate).
      assert (AO : apart (output_dir c) (cx_dir c ++ [n])) by (destruct I as [<-|[<-|[]]]; assumption).
      destruct Y as [-> | ->]; rewrite ?(proj1 K4 _ AM), (proj1 K3 _ AO); now apply K2.
    - intros q N1 N2. rewrite <- (S2 q N1 N2). destruct (above_dec temp q) as [[r ->]|N3]; [now rewrite !SaveFacts.below_none|].
      destruct Y as [-> | ->]; [|rewrite (proj2 K4 q) by (rewrite Cfg; exact N2)]; rewrite (proj2 K3 q N1); now apply K2. }
  destruct r3 as [u| | |]; cbn [fst snd] in *; try (apply FIN; [now left|exact T1]).
  destruct r4 as [u4| | |]; cbn [fst snd] in *; try (apply FIN; [now right|exact T1]).
  rewrite (idle_ran m c (cx_post c) d4 ID) in * by (intros x X; apply in_app_iff; now right). cbn [fst snd] in *. apply FIN; [now right|exact T1].
Qed.

(** A build without faults from any disk that has the same sources. *)
Lemma build_from m c d c1 d1 c' d' : cli_build m no_faults c d = (c1, d1, COk) -> same_project c c' -> cx_pre c' = cx_pre c -> cx_post c' = cx_post c -> cx_output c' = cx_output c ->
  idle_scripts m c -> clear_way c d -> inward_project c d -> clear_way c d' -> same_but_output c d d' ->
  Forall (fun n => apart (output_dir c) (cx_dir c ++ [n])) [lit "content"; lit "static"; lit "temp"; lit "metadata.json"] ->
  exists c2 d2, cli_build m no_faults c' d' = (c2, d2, COk) /\ same_project c c2 /\ (forall q, what q d2 = what q d1).
Proof.
  intros B SP PR PO OU ID (D & T0 & W0 & M0) IP (D' & T0' & W0' & M0') [S1 S2] AP. inversion AP as [|? ? A1 AP1]; subst. inversion AP1 as [|? ? A2 AP2]; subst. inversion AP2 as [|? ? A3 AP3]; subst. inversion AP3 as [|? ? A4 _]; subst. clear AP AP1 AP2 AP3.
  assert (DIR : cx_dir c' = cx_dir c) by apply SP. assert (OD : join_path (cx_dir c') (cx_output c') = output_dir c) by (unfold output_dir; now rewrite DIR, OU).
  unfold cli_build in B. rewrite (idle_ran m c (cx_pre c) d ID) in B by (intros x X; apply in_app_iff; now left).
  destruct (build_and_merge m c d) as [st r] eqn:BM. destruct r as [[]| | |]; try discriminate. cbn [fl_temp fl_save fl_meta no_faults] in B.
  assert (SS : same_sources (cx_dir c) d d').
  { intros n [<-|[<-|[<-|[]]]]; [apply S1; now left|apply S1; right; now left|]. apply kind_none in T0, T0'. congruence. }
  assert (BM' := bam_ok m c c' d d' st SP SS BM).
  assert (RT : forall x, what (cx_dir c ++ [lit "temp"]) x = KNone -> remove_temp None (cx_dir c ++ [lit "temp"]) x = x).
  { intros x E. apply kind_none in E. unfold remove_temp, rmtree. destruct (cx_dir c ++ [lit "temp"]); [reflexivity|]. now rewrite E. }
  rewrite (RT d T0) in B. destruct (merged_tame _ _ _ _ BM IP) as (out & O & T). fold (output_dir c) in B.
  assert (Cfg : st_config st = st_config (cx_stuart c) /\ st_plugins st = st_plugins (cx_stuart c)) by (destruct (merged_output _ _ _ _ BM) as (? & _ & _ & Q1 & Q2 & _); now split).
  assert (SO := save_outside None st (output_dir c) d out O T). destruct (save None st (output_dir c) d) as [d3 r] eqn:SV. cbn [fst] in SO. destruct r as [[]| | |]; try discriminate.
  assert (NE : output_dir c <> []) by (intros E; rewrite E in A1; apply (proj1 A1); now exists (cx_dir c ++ [lit "content"])).
  assert (NP : ~ above (output_dir c) (parent (output_dir c))).
  { intros [r E]. apply (f_equal (@length text)) in E. destruct (output_dir c) as [|k p _] using rev_ind; [contradiction|]. unfold parent in E. rewrite removelast_last, !app_length in E. cbn in E. lia. }
  assert (PD : what (parent (output_dir c)) d = KDir).
  { unfold save in SV. rewrite O in SV. destruct out as [|name ch src]; [discriminate|]. cbn [save_ops] in SV.
    destruct (tame_saves_all (st_config st) ch (fun c m I J => T ch c m eq_refl I J) []) as [l L]. apply saves_ops with (p := output_dir c) in L. rewrite app_nil_r in L. rewrite L in SV.
    destruct (run_ops None _ d) as [d0 ok] eqn:R. destruct ok; [|discriminate]. injection SV as ->. apply run_ops_cons in R. destruct R as (f1 & e1 & R1 & R). apply run_ops_cons in R. destruct R as (f2 & e2 & R2 & R).
    destruct (ops_below (output_dir c) l f2 e2 [] d3 (fresh_dir _ _ _ _ R1 R2) R) as (l1 & _ & Q). rewrite <- (SO _ NP).
    destruct (output_dir c) as [|k p _] using rev_ind; [contradiction|]. unfold parent. rewrite removelast_last. rewrite lookup_app in Q. unfold what. now destruct (lookup p d3) as [[|l0|]|]. }
  assert (NMO : ~ above (cx_dir c ++ [lit "metadata.json"]) (parent (output_dir c))).
  { intros [r E]. apply (proj2 A4). destruct (output_dir c) as [|k p _] using rev_ind; [contradiction|]. unfold parent in E. rewrite removelast_last in E. rewrite E. exists (r ++ [k]). now rewrite app_assoc. }
  assert (PD' : what (parent (output_dir c)) d' = KDir) by (rewrite (S2 _ NP (fun _ => NMO)); exact PD).
  destruct (save_again None st (output_dir c) d d3 (output_dir c) d' out O T SV D' NE PD' W0') as (d3' & l1 & SV' & Q1 & Q2).
  assert (SO' := save_outside None st (output_dir c) d' out O T). rewrite SV' in SO'. cbn [fst] in SO'.
  set (meta := cx_dir c ++ [lit "metadata.json"]) in *.
  assert (W3 : forall q, (cf_meta (st_config st) = true -> ~ above meta q) -> what q d3' = what q d3).
  { intros q NM. destruct (above_dec (output_dir c) q) as [[r ->]|NA]; [unfold what; now rewrite !lookup_app, Q1, Q2|].
    rewrite (SO _ NA), (SO' _ NA). apply S2; [exact NA|]. destruct Cfg as [<- _]. exact NM. }
  assert (LM : forall x y z, (x, y, z) = (d, d3, true) \/ (x, y, z) = (d', d3', true) -> lookup meta y = lookup meta x).
  { intros x y z [E|E]; injection E as -> -> _; [now apply (save_apart st (output_dir c) d d3 out)|now apply (save_apart st (output_dir c) d' d3' out)]. }
  assert (C2 : same_project c (set_stuart st c')).
  { unfold same_project, set_stuart. cbn [cx_stuart cx_mode cx_dir]. destruct Cfg, SP as (_ & _ & X & Y). repeat split; assumption. }
  unfold cli_build. rewrite PR, (idle_ran m c (cx_pre c) d' ID) by (intros x X; apply in_app_iff; now left). rewrite BM'. cbn [fl_temp fl_save fl_meta no_faults]. rewrite OD, DIR, (RT d' T0'), SV'. fold meta. rewrite PO.
  destruct (cf_meta (st_config st)) eqn:CM.
  2:{ rewrite (idle_ran m c (cx_post c) d3 ID) in B by (intros x X; apply in_app_iff; now right). rewrite (idle_ran m c (cx_post c) d3' ID) by (intros x X; apply in_app_iff; now right).
      injection B as <- <-. do 2 eexists. split; [reflexivity|]. split; [exact C2|]. intros q. now apply W3. }
  unfold save_metadata in *. destruct (metadata_value st) as [v| | |]; try discriminate. cbn [run_ops] in *.
  destruct (run_op (OWrite meta (m_ser m v)) d3) as [d4|] eqn:RO; [|discriminate]. rewrite (idle_ran m c (cx_post c) d4 ID) in B by (intros x X; apply in_app_iff; now right). injection B as <- <-.
  assert (MD : what (parent meta) d3 = KDir).
  { unfold meta, parent. rewrite removelast_last. destruct (write_effect _ _ _ _ RO) as [_ WE]. assert (Z := WE meta). destruct (path_eq meta meta); [|contradiction]. unfold what in Z. unfold meta in Z at 1. rewrite lookup_app in Z.
    assert (Y := WE (cx_dir c)). destruct (path_eq meta (cx_dir c)) as [E|_]; [exfalso; apply (f_equal (@length text)) in E; unfold meta in E; rewrite app_length in E; cbn in E; lia|]. rewrite <- Y. unfold what.
    destruct (lookup (cx_dir c) d4) as [[|l0|]|]; try discriminate. reflexivity. }
  assert (MD' : what (parent meta) d3' = KDir).
  { rewrite W3; [exact MD|]. intros _ [r E]. apply (f_equal (@length text)) in E. unfold meta, parent in E. rewrite removelast_last, !app_length in E. cbn in E. lia. }
  assert (WM : what meta d3' = KNone \/ exists b, what meta d3' = KFile b).
  { unfold what. rewrite (LM d' d3' true) by now right. apply M0'. destruct Cfg as [<- _]. exact CM. }
  assert (RO' : exists d4', run_op (OWrite meta (m_ser m v)) d3' = Some d4').
  { cbn [run_op]. unfold write_file. unfold what in WM. apply is_edir_spec in MD'. destruct (lookup meta d3') as [[b|l|]|]; cbn [kind_of] in WM; try (destruct WM as [WM|[b' WM]]; discriminate); eauto. rewrite MD'. eauto. }
  destruct RO' as [d4' RO']. rewrite RO'. rewrite (idle_ran m c (cx_post c) d4' ID) by (intros x X; apply in_app_iff; now right). do 2 eexists. split; [reflexivity|]. split; [exact C2|]. intros q.
  destruct (write_effect _ _ _ _ RO) as [_ WE], (write_effect _ _ _ _ RO') as [_ WE'].
  destruct (above_dec meta q) as [[r ->]|N].
  - assert (F : what meta d4 = KFile (m_ser m v)) by (rewrite WE; now destruct (path_eq meta meta)). assert (F' : what meta d4' = KFile (m_ser m v)) by (rewrite WE'; now destruct (path_eq meta meta)).
    destruct r as [|k r]; [rewrite app_nil_r; congruence|]. rewrite (below_file _ _ _ _ F), (below_file _ _ _ _ F'); congruence.
  - rewrite WE, WE'. destruct (path_eq meta q); [reflexivity|]. now apply W3.
Qed.
Lemma attempts_keep m c d d' st : build_and_merge m c d = (st, Ok tt) -> idle_scripts m c -> clear_way c d -> inward_project c d ->
  Forall (fun n => apart (output_dir c) (cx_dir c ++ [n])) [lit "content"; lit "static"; lit "temp"; lit "metadata.json"] -> 
  forall x, attempts m c x d' -> same_but_output c d x -> clear_way c x -> clear_way c d' /\ same_but_output c d d'.
Proof.
  intros BM ID CW IP AP x A. induction A as [x|x f c3 c4 x1 r x2 E1 E2 E3 E4 E5 E6 A IH]; intros Z W; [now split|].
  apply IH; [|exact E6]. pose proof (attempt_keeps m f c c3 x d st E1 E2 E3 E4 ID BM IP (proj1 (proj2 CW)) W Z AP) as K. rewrite E5 in K. now apply K.
Qed.
Lemma built_in_memory m c d c1 d1 : cli_build m no_faults c d = (c1, d1, COk) -> idle_scripts m c -> exists st, build_and_merge m c d = (st, Ok tt).
Proof.
  intros B ID. unfold cli_build in B. rewrite (idle_ran m c (cx_pre c) d ID) in B by (intros x X; apply in_app_iff; now left). destruct (build_and_merge m c d) as [st [[]| | |]]; try discriminate. now exists st.
Qed.
Lemma recovers m c d c1 d1 d' c' : cli_build m no_faults c d = (c1, d1, COk) -> idle_scripts m c -> clear_way c d -> inward_project c d ->
  Forall (fun n => apart (output_dir c) (cx_dir c ++ [n])) [lit "content"; lit "static"; lit "temp"; lit "metadata.json"] -> attempts m c d d' ->
  same_project c c' -> cx_pre c' = cx_pre c -> cx_post c' = cx_post c -> cx_output c' = cx_output c ->
  exists c2 d2, cli_build m no_faults c' d' = (c2, d2, COk) /\ (forall q, what q d2 = what q d1).
Proof.
  intros B ID CW IP AP AT SP PR PO OU.
  destruct (built_in_memory _ _ _ _ _ B ID) as [st BM].
  destruct (attempts_keep m c d d' st BM ID CW IP AP d AT (conj (fun n _ => eq_refl) (fun q _ _ => eq_refl)) CW) as [G1 G2].
  destruct (build_from m c d c1 d1 c' d' B SP PR PO OU ID CW IP G1 G2 AP) as (c2 & d2 & X & _ & Y). eauto.
Qed.

(** ** The command *)
Lemma main_build w lv manifest output d dir name r : meant (w_cwd w) manifest (dir ++ [name]) -> manifest_says w (dir ++ [name]) d r [] ->
  let m := machine_of w (dir ++ [name]) output (lit "production") in let c := init r [] dir output (lit "production") d in
  exists items, main w lv (CmdBuild manifest output) d = (snd (fst (cli_build m (w_build_faults w 0) c d)), exit_of (snd (cli_build m (w_build_faults w 0) c d)), items).
Proof.
  intros M S. cbn zeta. destruct (start_ok w manifest output (lit "production") d dir name r [] d [] M S) as [said E]; [constructor|].
  unfold main, perform, build_command. rewrite E. apply join_meant in M. rewrite M. destruct (cli_build _ _ _ d) as [[c1 d1] x]. cbn [fst snd]. destruct x; eexists; reflexivity.
Qed.
Lemma runs_recover w lv lv' manifest output dir name r d d1 items d' : untroubled w -> meant (w_cwd w) manifest (dir ++ [name]) -> manifest_says w (dir ++ [name]) d r [] ->
  what (dir ++ [lit "scripts"]) d = KNone -> name <> lit "metadata.json" ->
  let c := init r [] dir output (lit "production") d in
  clear_way c d -> inward_project c d ->
  Forall (fun n => apart (output_dir c) (dir ++ [n])) [lit "content"; lit "static"; lit "temp"; lit "metadata.json"; lit "scripts"; name] ->
  main w lv (CmdBuild manifest output) d = (d1, Exit 0, items) -> runs w manifest output c d d' ->
  exists d2 items', main w lv' (CmdBuild manifest output) d' = (d2, Exit 0, items') /\ forall q, what q d2 = what q d1.
Proof.
  intros U M S NS NN c CW IP AP B RU. pose proof (proj1 U 0) as NF.
  assert (AP4 : Forall (fun n => apart (output_dir c) (cx_dir c ++ [n])) [lit "content"; lit "static"; lit "temp"; lit "metadata.json"]).
  { rewrite Forall_forall in *. intros n I. apply (AP n). repeat (destruct I as [<-|I]; [cbn; tauto|]). destruct I. }
  assert (AS : apart (output_dir c) (dir ++ [lit "scripts"])) by (rewrite Forall_forall in AP; apply AP; cbn; tauto).
  assert (AN : apart (output_dir c) (dir ++ [name])) by (rewrite Forall_forall in AP; apply AP; cbn; tauto). clear AP.
  set (m := machine_of w (dir ++ [name]) output (lit "production")).
  assert (ID : idle_scripts m c). { intros n x I. unfold c, init in I. cbn [cx_pre cx_post] in I. destruct (no_script_lists dir d NS) as [E1 E2]. rewrite E1, E2 in I. destruct I. }
  destruct (main_build w lv manifest output d dir name r M S) as [it E]. fold m c in E. rewrite NF, B in E. injection E as E1 E2 _.
  destruct (cli_build m no_faults c d) as [[c1 dx] x] eqn:CB. cbn [fst snd] in E1, E2. subst dx. destruct x; try discriminate E2. clear E2.
  destruct (built_in_memory _ _ _ _ _ CB ID) as [st BM].
  assert (SN : forall x, same_but_output c d x -> what (dir ++ [lit "scripts"]) x = KNone /\ manifest_says w (dir ++ [name]) x r []).
  { intros x [_ S2]. split.
    - rewrite S2; [exact NS|exact (proj1 AS)|]. intros _. apply siblings_apart. discriminate.
    - destruct S as (b & t & W & Ut & T). exists b, t. rewrite S2; [now repeat split|exact (proj1 AN)|]. intros _. apply siblings_apart. congruence. }
  assert (IN : forall x, same_but_output c d x -> init r [] dir output (lit "production") x = c).
  { intros x SX. unfold c, init. destruct (no_script_lists dir d NS) as [-> ->], (no_script_lists dir x (proj1 (SN x SX))) as [-> ->]. reflexivity. }
  assert (H : forall x y, runs w manifest output c x y -> same_but_output c d x -> clear_way c x -> clear_way c y /\ same_but_output c d y).
  { clearbody c. intros x y R. induction R as [x|x fs lv0 x1 e it2 x2 E1 E2 R IH]; intros Z W; [now split|].
    apply IH; [|exact E2]. destruct (SN x Z) as [_ SX]. destruct (main_build (faulty fs w) lv0 manifest output x dir name r M SX) as [it3 E]. rewrite E1, (IN x Z) in E. injection E as E _ _.
    pose proof (attempt_keeps m (fs 0) c c x d st (conj eq_refl (conj eq_refl (conj eq_refl eq_refl))) eq_refl eq_refl eq_refl ID BM IP (proj1 (proj2 CW)) W Z AP4) as K.
    change (machine_of (faulty fs w) (dir ++ [name]) output (lit "production")) with m in E. cbn [faulty w_build_faults] in E. rewrite <- E in K. now apply K. }
  destruct (H d d' RU (conj (fun n _ => eq_refl) (fun q _ _ => eq_refl)) CW) as [G1 G2]. clear H RU.
  destruct (build_from m c d c1 d1 c d' CB (conj eq_refl (conj eq_refl (conj eq_refl eq_refl))) eq_refl eq_refl eq_refl ID CW IP G1 G2 AP4) as (c2 & d2 & X & _ & Y).
  destruct (main_build w lv' manifest output d' dir name r M (proj2 (SN d' G2))) as [it2 E]. fold m in E. rewrite (IN d' G2), NF, X in E. cbn [fst snd exit_of] in E. eauto.
Qed.
