(** DevFacts.v -- the watcher, the broadcast, the served bytes and error reports (C50 to C53, C58). *)

From Coq Require Import String List NArith ZArith Bool Lia Permutation.
From Verif Require Import Text Utf8 Json Base Syntax Parse Tree Interp Build Disk Cli Dev SpecScope SpecTree SpecDisk SpecProject SpecMarkdown SpecDev.
From Verif Require Import SpecChars TextFacts CharFacts ScopeFacts MarkdownFacts DiskFacts SaveFacts ProjectFacts CliFacts ProgramFacts.
Import ListNotations.

(** ** The watcher *)
Lemma rebuilds_passed p : rebuilds p = false <-> passed p.
Proof.
  unfold rebuilds, ignored_event. split.
  - intros R. apply andb_false_iff in R. rewrite !negb_false_iff in R. destruct R as [R|R].
    + destruct p as [|c q]; [discriminate|]. cbn [first_is] in R. apply orb_true_iff in R.
      destruct R as [R|R]; apply text_eqb_eq in R; subst c; constructor.
    + unfold last_is in R. destruct (rev p) as [|c q] eqn:V; [discriminate|]. apply text_eqb_eq in R. subst c.
      replace p with (rev q ++ [lit "stuart.toml"]); [constructor|]. rewrite <- (rev_involutive p), V. reflexivity.
  - intros [q|q|q]; apply andb_false_iff; rewrite !negb_false_iff; [left|left|right].
    + cbn [first_is]. apply orb_true_iff. left. now apply text_eqb_eq.
    + cbn [first_is]. apply orb_true_iff. right. now apply text_eqb_eq.
    + unfold last_is. rewrite rev_app_distr. cbn [rev app]. now apply text_eqb_eq.
Qed.
Lemma rebuilds_kept p : ~ passed p <-> rebuilds p = true.
Proof. rewrite <- rebuilds_passed. destruct (rebuilds p); intuition congruence. Qed.
Section Watch.
Context {Src : Type} (result : Src -> outcome) (own : Src -> list path).
Notation step := (dev_step result own). Notation run := (dev_run result own).

(** The state is published, or its build has failed or killed the program. *)
Definition settled (s : Src) (ph : phase Src) (pub : option Src) : Prop :=
  match result s with Built => pub = Some s | Failed => True | Died => ph = Dead end.
Notation pending := (@awaited Src).
(** After a last change to [s]. *)
Definition follows (s : Src) (d : dev Src) : Prop :=
  dv_src d = s /\
  match dv_phase d with
  | Booting _ => False
  | Idle => pending d \/ settled s (dv_phase d) (dv_pub d)
  | Building snap => snap = s
  | Draining => settled s (dv_phase d) (dv_pub d)
  | Dead => result s = Died \/ settled s Dead (dv_pub d)
  end.
Lemma follows_step s a d d' : no_edit a -> step a d d' -> follows s d -> follows s d'.
Proof.
  intros N ST [E F]. destruct ST as [s0 l q ph pub s' p|s0 e l q ph pub|s0 l q snap pub ph pub' AB|s0 l o p q pub R|s0 l o p q pub R|s0 l q snap pub ph pub' AB|s0 l q pub];
    cbn [dv_src dv_phase dv_pub] in *; subst.
  - exfalso. now apply (N p).
  - split; [reflexivity|]. cbn [dv_phase dv_pub]. destruct ph; try exact F. destruct F as [(o & p & I & R)|F]; [|now right]. left. exists o, p. split; [|exact R].
    cbn [dv_late dv_queue] in *. apply in_app_iff. apply in_app_iff in I. destruct I as [[->|I]|I]; [right; apply in_app_iff; right; now left|now left|right; apply in_app_iff; now left].
  - contradiction.
  - split; [reflexivity|]. cbn [dv_phase dv_pub]. destruct F as [(o' & p' & I & R')|F]; [|now right]. left. exists o', p'. split; [|exact R']. cbn [dv_late dv_queue] in *.
    apply in_app_iff. apply in_app_iff in I. destruct I as [I|[I|I]]; [now left| |now right]. injection I as _ ->. exfalso. apply R'. now apply rebuilds_passed.
  - split; reflexivity.
  - split; [reflexivity|]. cbn [dv_phase dv_pub]. unfold after_build in AB. destruct (result s) eqn:Q; injection AB as <- <-; unfold settled; rewrite ?Q; auto.
  - split; [reflexivity|]. cbn [dv_phase dv_pub]. right. unfold settled in *. destruct (result s); [exact F|exact I|discriminate].
Qed.
Lemma follows_run s l d d' : Forall no_edit l -> run l d d' -> follows s d -> follows s d'.
Proof.
  intros N R. induction R as [|a l d d1 d2 S R IH]; [auto|]. inversion N; subst. intros F. apply IH; [assumption|]. now apply (follows_step s a d).
Qed.
Lemma rebuilt d0 p d1 l d2 : dv_phase d0 = Idle -> ~ passed p -> step (LEdit p) d0 d1 ->
  Forall no_edit l -> run l d1 d2 -> quiet d2 -> result (dv_src d1) = Built -> dv_pub d2 = Some (dv_src d1) /\ dv_src d2 = dv_src d1.
Proof.
  intros P R ST N RUN (Q1 & Q2 & Q3) B.
  assert (F : follows (dv_src d1) d1).
  { inversion ST; subst. cbn [dv_phase] in P. subst ph. split; [reflexivity|]. cbn [dv_phase dv_src dv_pub]. left. exists false, p. split; [|exact R].
    cbn [dv_late dv_queue edit_events]. apply in_app_iff. left. apply in_app_iff. right. now left. }
  apply (follows_run _ l d1 d2 N RUN) in F. destruct F as [E F]. rewrite Q1 in F. split; [|exact E].
  destruct F as [(o' & p' & I & _)|F]; [rewrite Q2, Q3 in I; destruct I|]. unfold settled in F. now rewrite B in F.
Qed.
Lemma rebuilt_late d l d2 : dv_phase d = Idle -> awaited d ->
  Forall no_edit l -> run l d d2 -> quiet d2 -> result (dv_src d) = Built -> dv_pub d2 = Some (dv_src d) /\ dv_src d2 = dv_src d.
Proof.
  intros P A N RUN (Q1 & Q2 & Q3) B.
  assert (F : follows (dv_src d) d) by (split; [reflexivity|]; rewrite P; now left).
  apply (follows_run _ l d d2 N RUN) in F. destruct F as [E F]. rewrite Q1 in F. split; [|exact E].
  destruct F as [(o & p & I & _)|F]; [rewrite Q2, Q3 in I; destruct I|]. unfold settled in F. now rewrite B in F.
Qed.
(** What is published. *)
Definition history (L : list Src) (d : dev Src) : Prop :=
  match dv_phase d with
  | Booting s | Building s => exists L', L = L' ++ [s] /\ last_success result L' (dv_pub d)
  | _ => last_success result L (dv_pub d)
  end.
Lemma success_ends L s next pub ph pub' : last_success result L pub -> after_build result s next pub = (ph, pub') ->
  (forall x, next <> Booting x) -> (forall x, next <> Building x) ->
  last_success result (L ++ [s]) pub' /\ (forall x, ph <> Booting x) /\ (forall x, ph <> Building x).
Proof.
  intros S A N1 N2. unfold after_build in A.
  assert (K : result s <> Built -> last_success result (L ++ [s]) pub).
  { intros NB. destruct S as [[-> F]|(l1 & x & l2 & -> & -> & B & F)]; [left; split; [reflexivity|apply Forall_app; now repeat constructor]|].
    right. exists l1, x, (l2 ++ [s]). split; [reflexivity|]. split; [now rewrite <- app_assoc|]. split; [exact B|apply Forall_app; now repeat constructor]. }
  destruct (result s) eqn:R; injection A as <- <-.
  - split; [|now split]. right. exists L, s, []. now repeat split.
  - split; [|now split]. now apply K.
  - split; [|now split]. now apply K.
Qed.
Lemma history_step a d d' L : step a d d' -> history L d ->
  match a with LBuild _ => history (L ++ [dv_src d]) d' | _ => history L d' end.
Proof.
  intros ST H. unfold history in *. destruct ST as [s0 l q ph pub s' p|s0 e l q ph pub|s0 l q snap pub ph pub' AB|s0 l o p q pub R|s0 l o p q pub R|s0 l q snap pub ph pub' AB|s0 l q pub];
    cbn [dv_src dv_phase dv_pub] in *; try exact H.
  - destruct H as (L' & -> & H). destruct (success_ends _ _ _ _ _ _ H AB) as (S & N1 & N2); try discriminate. destruct ph; try exact S; exfalso; [now apply (N1 snapshot)|now apply (N2 snapshot)].
  - now exists L.
  - destruct H as (L' & -> & H). destruct (success_ends _ _ _ _ _ _ H AB) as (S & N1 & N2); try discriminate. destruct ph; try exact S; exfalso; [now apply (N1 snapshot)|now apply (N2 snapshot)].
Qed.
Lemma history_run d l d' : starts result own d l d' -> forall L, history L d -> history (L ++ l) d'.
Proof.
  induction 1 as [d|o d d1 l d2 ST _ IH|a d d1 l d2 ST N _ IH]; intros L H.
  - now rewrite app_nil_r.
  - apply (history_step _ _ _ _ ST) in H. change (dv_src d :: l) with ([dv_src d] ++ l). rewrite app_assoc. now apply IH.
  - apply (history_step _ _ _ _ ST) in H. apply IH. destruct a; try exact H. now destruct (N own0).
Qed.
Lemma latest s l d : starts result own (dev_init s) l d ->
  (~ busy d -> last_success result (s :: l) (dv_pub d)) /\
  (busy d -> exists l' x, s :: l = l' ++ [x] /\ last_success result l' (dv_pub d)).
Proof.
  intros R. assert (H : history [s] (dev_init s)) by (exists []; split; [reflexivity|]; left; now split).
  apply (history_run _ _ _ R) in H. cbn [app] in H. unfold history in H. split.
  - intros NB. destruct (dv_phase d) eqn:P; try exact H; exfalso; apply NB; exists snapshot; auto.
  - intros [x [P|P]]; rewrite P in H; destruct H as (L' & E & H); exists L', x; now split.
Qed.
(** Without a change by the user after the first build has begun. *)
Lemma booted s l d : Forall no_edit l -> run l (dev_init s) d -> quiet d -> result s = Built -> dv_pub d = Some s /\ dv_src d = s.
Proof.
  intros N R Q B.
  assert (G : forall l d0 d, Forall no_edit l -> run l d0 d -> (d0 = dev_init s \/ follows s d0) -> d = dev_init s \/ follows s d).
  { clear - B. intros l d0 d N R. induction R as [|a l d d1 d2 ST R IH]; [auto|]. inversion N; subst. intros [->|F].
    - apply IH; [assumption|]. inversion ST; subst.
      + exfalso. now apply (H1 p).
      + right. unfold after_build in *. match goal with H : match result s with _ => _ end = _ |- _ => rewrite B in H; injection H as <- <- end. split; [reflexivity|]. right. unfold settled. now rewrite B.
    - apply IH; [assumption|]. right. now apply (follows_step s a d). }
  destruct Q as (Q1 & Q2 & Q3). destruct (G l _ d N R (or_introl eq_refl)) as [->|[E F]]; [discriminate|].
  split; [|exact E]. rewrite Q1 in F. destruct F as [(o & p & I & _)|F]; [rewrite Q2, Q3 in I; destruct I|]. unfold settled in F. now rewrite B in F.
Qed.
Lemma progress d : alive d -> ~ quiet d -> exists d', moves result own d d'.
Proof.
  intros A NQ. destruct d as [s l q ph pub]. unfold alive in A. cbn [dv_phase] in A.
  assert (N1 : no_edit LOther) by (intros p; discriminate). assert (N2 : forall o, no_edit (LBuild o)) by (intros o p; discriminate).
  destruct ph as [snap| |snap| |].
  - destruct (after_build result snap Idle pub) as [ph' pub'] eqn:E. exists (Dev s l q ph' pub'), LOther. split; [exact N1|]. now constructor.
  - destruct q as [|[o p] q].
    + destruct l as [|e l]; [exfalso; apply NQ; now repeat split|]. exists (Dev s l ([] ++ [e]) Idle pub), LOther. split; [exact N1|]. constructor.
    + destruct (rebuilds p) eqn:R; [eexists; exists (LBuild o); split; [apply N2|]; now apply step_start|]. eexists; exists LOther. split; [exact N1|]. now apply step_ignore.
  - destruct (after_build result snap Draining pub) as [ph' pub'] eqn:E. exists (Dev s l q ph' pub'), LOther. split; [exact N1|]. now constructor.
  - eexists; exists LOther. split; [exact N1|]. constructor.
  - contradiction.
Qed.

(** Termination. *)
Definition triggers (l : list (bool * path)) : nat := length (filter (fun e => rebuilds (snd e)) l).
Definition rank (ph : phase Src) : nat := match ph with Booting _ => 2 | Building _ => 2 | Draining => 1 | Idle => 0 | Dead => 0 end.
Definition tr (d : dev Src) : nat := triggers (dv_late d) + triggers (dv_queue d).
Definition wt (d : dev Src) : nat := 2 * length (dv_late d) + length (dv_queue d).
Lemma triggers_app a b : triggers (a ++ b) = triggers a + triggers b.
Proof. unfold triggers. now rewrite filter_app, app_length. Qed.
Lemma triggers_own s : own_passed own -> triggers (map (pair true) (own s)) = 0.
Proof.
  intros O. unfold triggers. replace (filter _ _) with (@nil (bool * path)); [reflexivity|]. pose proof (O s) as H. induction (own s) as [|p l IH]; [reflexivity|].
  cbn [map filter snd]. rewrite (proj2 (rebuilds_passed p) (H p (or_introl eq_refl))). apply IH. intros q I. apply H. now right.
Qed.
Lemma decreasing a d d' : own_passed own -> no_edit a -> step a d d' ->
  tr d' < tr d \/ tr d' <= tr d /\ (rank (dv_phase d') < rank (dv_phase d) \/ rank (dv_phase d') = rank (dv_phase d) /\ wt d' < wt d).
Proof.
  intros O N ST. destruct ST as [s0 l q ph pub s' p|s0 e l q ph pub|s0 l q snap pub ph pub' AB|s0 l o p q pub R|s0 l o p q pub R|s0 l q snap pub ph pub' AB|s0 l q pub];
    unfold tr, wt; cbn [dv_late dv_queue dv_phase rank].
  - exfalso. now apply (N p).
  - right. rewrite triggers_app, app_length. change (e :: l) with ([e] ++ l). rewrite triggers_app. cbn [length app]. lia.
  - right. split; [lia|]. left. unfold after_build in AB. destruct (result snap); injection AB as <- <-; cbn; lia.
  - right. unfold triggers at 2 4. cbn [filter snd]. rewrite R. fold (triggers q). fold (triggers l). cbn [length]. lia.
  - left. rewrite triggers_app, (triggers_own s0 O). unfold triggers at 2 4. cbn [filter snd]. rewrite R. cbn [length]. fold (triggers q). fold (triggers l). lia.
  - right. split; [lia|]. left. unfold after_build in AB. destruct (result snap); injection AB as <- <-; cbn; lia.
  - right. cbn. lia.
Qed.
Lemma terminates : own_passed own -> forall d, Acc (fun d' d => moves result own d d') d.
Proof.
  intros O.
  assert (G : forall u r w d, tr d <= u -> rank (dv_phase d) <= r -> wt d <= w -> Acc (fun d' d => moves result own d d') d).
  { induction u as [u IHu] using (well_founded_induction Wf_nat.lt_wf). induction r as [r IHr] using (well_founded_induction Wf_nat.lt_wf).
    induction w as [w IHw] using (well_founded_induction Wf_nat.lt_wf). intros d Hu Hr Hw. constructor. intros d' (a & N & ST).
    destruct (decreasing a d d' O N ST) as [L|[L [M|[M K]]]].
    - apply (IHu (tr d') ltac:(lia) (rank (dv_phase d')) (wt d')); lia.
    - apply (IHr (rank (dv_phase d')) ltac:(lia) (wt d')); lia.
    - apply (IHw (wt d') ltac:(lia)); lia. }
  intros d. apply (G (tr d) (rank (dv_phase d)) (wt d)); lia.
Qed.

(** Builds are caused by changes. *)
Lemma step_count a d d' : own_passed own -> step a d d' -> tr d' + builds [a] <= tr d + edits [a].
Proof.
  intros O ST. destruct ST as [s0 l q ph pub s' p|s0 e l q ph pub|s0 l q snap pub ph pub' AB|s0 l o p q pub R|s0 l o p q pub R|s0 l q snap pub ph pub' AB|s0 l q pub];
    unfold tr; cbn [dv_late dv_queue builds edits].
  - rewrite triggers_app. destruct ph; cbn [edit_events]; unfold triggers at 2; cbn [filter snd]; try destruct (rebuilds p); cbn [length]; lia.
  - rewrite triggers_app. change (e :: l) with ([e] ++ l). rewrite triggers_app. lia.
  - lia.
  - unfold triggers at 4. cbn [filter snd]. rewrite R. fold (triggers q). lia.
  - rewrite triggers_app, (triggers_own s0 O). unfold triggers at 4. cbn [filter snd]. rewrite R. cbn [length]. fold (triggers q). lia.
  - lia.
  - cbn. lia.
Qed.
Lemma run_count l d d' : own_passed own -> run l d d' -> tr d' + builds l <= tr d + edits l.
Proof.
  intros O R. induction R as [|a l d d1 d2 ST R IH]; [cbn; lia|]. pose proof (step_count a d d1 O ST) as H. destruct a; cbn [builds edits] in *; lia.
Qed.
Lemma builds_by_edits s l d : own_passed own -> run l (dev_init s) d -> builds l <= edits l.
Proof. intros O R. pose proof (run_count l _ d O R) as H. cbn in H. lia. Qed.
Lemma step_own (P : list (bool * path) -> Prop) a d d' : own_passed own -> (forall p, In (true, p) (dv_late d ++ dv_queue d) -> rebuilds p = false) -> step a d d' ->
  a <> LBuild true /\ forall p, In (true, p) (dv_late d' ++ dv_queue d') -> rebuilds p = false.
Proof.
  intros O H ST. destruct ST as [s0 l q ph pub s' p|s0 e l q ph pub|s0 l q snap pub ph pub' AB|s0 l o p q pub R|s0 l o p q pub R|s0 l q snap pub ph pub' AB|s0 l q pub];
    cbn [dv_late dv_queue] in *; (split; [try discriminate|]).
  - intros p' I. apply H. rewrite <- app_assoc in I. apply in_app_iff. apply in_app_iff in I. destruct I as [I|I]; [now left|]. right. apply in_app_iff in I. destruct I as [I|I]; [|exact I].
    destruct ph; cbn in I; intuition discriminate.
  - intros p' I. apply H. apply in_app_iff in I. destruct I as [I|I]; [right; apply in_app_iff; now left|]. apply in_app_iff in I. destruct I as [I|[I|[]]]; [right; apply in_app_iff; now right|now left].
  - exact H.
  - intros p' I. apply H. apply in_app_iff. apply in_app_iff in I. destruct I as [I|I]; [now left|right; now right].
  - intros E. injection E as ->. rewrite (H p) in R; [discriminate|]. apply in_app_iff. right. now left.
  - intros p' I. rewrite <- app_assoc in I. apply in_app_iff in I. destruct I as [I|I]; [apply H; apply in_app_iff; now left|]. apply in_app_iff in I. destruct I as [I|I].
    + apply in_map_iff in I. destruct I as (x & E & I). injection E as <-. apply rebuilds_passed. now apply (O s0).
    + apply H. apply in_app_iff. right. now right.
  - exact H.
  - intros p' I. apply H. rewrite app_nil_r in I. apply in_app_iff. now left.
Qed.
Lemma never_own s l d : own_passed own -> run l (dev_init s) d -> ~ In (LBuild true) l.
Proof.
  intros O R. assert (G : forall p, In (true, p) (dv_late (dev_init s) ++ dv_queue (dev_init s)) -> rebuilds p = false) by (intros p []).
  revert R G. generalize (dev_init s). intros d0 R. induction R as [|a l d0 d1 d2 ST R IH]; intros G; [intros []|]. destruct (step_own (fun _ => True) a d0 d1 O G ST) as [A G'].
  intros [->|I]; [now apply A|now apply IH].
Qed.
(** One change and any number of builds. *)
Lemma endless s p p0 : In p (own s) -> ~ passed p -> ~ passed p0 -> result s <> Died -> forall n,
  exists l d, run l (Dev s [] [(false, p0)] Idle None) d /\ Forall no_edit l /\ builds l = n.
Proof.
  intros I R R0 RS. apply rebuilds_kept in R, R0. apply in_split in I. destruct I as (a & b & OW).
  assert (N1 : no_edit LOther) by (intros q; discriminate). assert (N2 : forall o, no_edit (LBuild o)) by (intros o q; discriminate).
  assert (RA : forall l1 l2 d0 d1 d2, run l1 d0 d1 -> run l2 d1 d2 -> run (l1 ++ l2) d0 d2).
  { intros l1 l2 d0 d1 d2 X Y. induction X; [exact Y|]. cbn. now apply dr_cons with d1; [|apply IHX]. }
  (* from a state with an own event about p waiting at the head of the channel *)
  assert (B : forall o p0 l q pub, rebuilds p0 = true -> exists ls l' q' pub', run ls (Dev s l ((o, p0) :: q) Idle pub) (Dev s l' ((true, p) :: q') Idle pub') /\ Forall no_edit ls /\ builds ls = 1).
  { clear R0 p0. intros o p0 l q pub R0.
    assert (DEL : forall x y q ph pub, run (repeat LOther (length x)) (Dev s (x ++ y) q ph pub) (Dev s y (q ++ x) ph pub)).
    { induction x as [|e x IH]; intros y q0 ph pub0; cbn [length repeat app]; [rewrite app_nil_r; constructor|]. apply dr_cons with (Dev s (x ++ y) (q0 ++ [e]) ph pub0); [constructor|].
      replace (q0 ++ e :: x) with ((q0 ++ [e]) ++ x) by now rewrite <- app_assoc. apply IH. }
    destruct (after_build result s Draining pub) as [ph' pub'] eqn:AB.
    assert (PH : ph' = Draining) by (unfold after_build in AB; destruct (result s); congruence). subst ph'.
    set (tail := map (pair true) b).
    exists ([LBuild o; LOther] ++ repeat LOther (length (l ++ map (pair true) a)) ++ [LOther] ++ [LOther]), tail, [], pub'. split.
    - apply RA with (Dev s ((l ++ map (pair true) a) ++ (true, p) :: tail) q Draining pub').
      { apply dr_cons with (Dev s (l ++ map (pair true) (own s)) q (Building s) pub); [now constructor|]. eapply dr_cons; [|constructor].
        rewrite OW, map_app. cbn [map]. fold tail. rewrite app_assoc. now constructor. }
      eapply RA; [apply DEL|]. eapply RA; [eapply dr_cons; [apply step_drain|constructor]|]. eapply dr_cons; [apply step_deliver|constructor].
    - split.
      + apply Forall_app. split; [repeat constructor; auto|]. apply Forall_app. split; [apply Forall_forall; intros x X; apply repeat_spec in X; now subst|]. repeat constructor; auto.
      + cbn [app builds]. f_equal. induction (length (l ++ map (pair true) a)); [reflexivity|]. cbn. assumption. }
  assert (G : forall n o p0 l q pub, rebuilds p0 = true -> exists ls d, run ls (Dev s l ((o, p0) :: q) Idle pub) d /\ Forall no_edit ls /\ builds ls = n).
  { clear R0 p0. induction n as [|n IH]; intros o p0 l q pub R0; [exists []; eexists; repeat split; constructor|].
    destruct (B o p0 l q pub R0) as (ls & l' & q' & pub' & R1 & F1 & C1). destruct (IH true p l' q' pub' R) as (ls2 & d & R2 & F2 & C2).
    exists (ls ++ ls2), d. split; [now apply RA with (Dev s l' ((true, p) :: q') Idle pub')|]. split; [now apply Forall_app|].
    rewrite <- C2. clear - C1. assert (BA : forall x y, builds (x ++ y) = builds x + builds y) by (induction x as [|[] x IH]; intros y; cbn; rewrite ?IH; reflexivity). rewrite BA, C1. reflexivity. }
  intros n. now apply (G n false p0 [] [] None).
Qed.
End Watch.

(** ** The paths of a build *)
Lemma tame_ops cf p out : tame_tree cf out -> forall ops, save_ops cf p out = Some ops -> Forall (fun o => above p (op_path o)) ops.
Proof.
  intros T ops. destruct out as [|name ch src]; [discriminate|]. cbn [save_ops]. intros E. injection E as <-.
  destruct (tame_saves_all cf ch (fun c m I J => T ch c m eq_refl I J) []) as [l L].
  apply saves_ops with (p := p) in L. rewrite app_nil_r in L. rewrite L.
  constructor; [apply above_refl|]. constructor; [apply above_refl|]. apply Forall_forall. intros o I. apply in_map_iff in I. destruct I as ([q [b|]] & <- & _); apply above_app.
Qed.
Lemma own_ignored m c d p r : inward_project c d -> output_dir c = cx_dir c ++ [lit "dist"] -> cf_meta (st_config (cx_stuart c)) = false ->
  In p (build_paths m c d) -> above p (cx_dir c ++ r) -> passed r.
Proof.
  intros IP OD CM I A. unfold build_paths in I. destruct (build_and_merge m c d) as [st [[]| | |]] eqn:BM; try destruct I.
  - subst p. destruct A as [x A]. rewrite <- app_assoc in A. apply app_inv_head in A. subst r. constructor.
  - destruct (merged_tame m c d st BM IP) as (out & O & T). rewrite O in H. fold (output_dir c) in H. apply in_app_iff in H. destruct H as [H|H].
    + destruct (save_ops (st_config st) (output_dir c) out) as [ops|] eqn:SO; [|destruct H]. apply in_map_iff in H. destruct H as (o & <- & H).
      pose proof (tame_ops _ _ _ T _ SO) as F. rewrite Forall_forall in F. specialize (F o H). rewrite OD in F. destruct F as [x F]. destruct A as [y A]. rewrite F in A.
      rewrite <- !app_assoc in A. apply app_inv_head in A. subst r. constructor.
    + destruct (merged_output _ _ _ _ BM) as (out' & _ & _ & Cf & _). rewrite Cf, CM in H. destruct H.
Qed.
Lemma run_ops_touch ops q : (forall o, In o ops -> ~ above (op_path o) q) -> forall f d, what q (fst (run_ops f ops d)) = what q d.
Proof.
  induction ops as [|o ops IH]; intros N f d; [reflexivity|]. cbn [run_ops].
  assert (G : forall f', what q (fst (match run_op o d with None => (d, false) | Some d' => run_ops f' ops d' end)) = what q d).
  { intros f'. destruct (run_op o d) as [d'|] eqn:E; [|reflexivity]. rewrite IH by (intros o' I; apply N; now right). apply (run_op_outside _ _ _ E). apply N. now left. }
  destruct f as [[[|k] junk]|]; try apply G. cbn [fst]. apply update_outside. apply N. now left.
Qed.
Lemma temp_outside f p d q : ~ above p q -> what q (remove_temp f p d) = what q d.
Proof.
  intros N. unfold remove_temp. destruct f as [junk|]; [now apply update_outside|]. unfold rmtree. destruct p as [|c p]; [reflexivity|]. destruct (lookup _ d) as [[| |]|]; try reflexivity. now apply update_outside.
Qed.
(** Without scripts a build changes the disk at these paths only. *)
Lemma build_touches m f c d q : cx_pre c = [] -> cx_post c = [] -> (forall p, In p (build_paths m c d) -> ~ above p q) ->
  what q (snd (fst (cli_build m f c d))) = what q d.
Proof.
  intros P1 P2 N. unfold cli_build. rewrite P1, P2. cbn [run_scripts]. unfold build_paths in N. destruct (build_and_merge m c d) as [st r]. destruct r as [u| | |]; try reflexivity.
  assert (T : what q (remove_temp (fl_temp f) (cx_dir c ++ [lit "temp"]) d) = what q d) by (apply temp_outside, N; now left).
  set (d2 := remove_temp _ _ d) in *. clearbody d2.
  assert (S : what q (fst (save (fl_save f) st (join_path (cx_dir c) (cx_output c)) d2)) = what q d).
  { rewrite <- T. unfold save. destruct (st_output st) as [out|]; [|reflexivity]. destruct (save_ops _ _ out) as [ops|]; [|reflexivity].
    assert (R : what q (fst (run_ops (fl_save f) ops d2)) = what q d2) by (apply run_ops_touch; intros o I; apply N; right; apply in_app_iff; left; now apply in_map).
    destruct (run_ops (fl_save f) ops d2) as [d0 [|]]; exact R. }
  destruct (save _ st _ d2) as [d3 r]. cbn [fst] in S. destruct r as [u0| | |]; try exact S. destruct (cf_meta (st_config st)) eqn:CM; [|exact S].
  assert (M : what q (fst (save_metadata (m_ser m) (fl_meta f) st (cx_dir c ++ [lit "metadata.json"]) d3)) = what q d3).
  { unfold save_metadata. destruct (metadata_value st) as [v| | |]; try reflexivity. pose proof (run_ops_touch [OWrite (cx_dir c ++ [lit "metadata.json"]) (m_ser m v)] q) as R. match type of R with ?A -> _ => assert (F : A) end.
    { intros o [<-|[]]. apply N. right. apply in_app_iff. right. now left. }
    specialize (R F (fl_meta f) d3). destruct (run_ops (fl_meta f) _ d3) as [d0 [|]]; exact R. }
  destruct (save_metadata _ _ st _ d3) as [d4 r]. cbn [fst] in M. rewrite S in M. destruct r; exact M.
Qed.

(** ** The broadcast *)
Lemma failing_app {A} (fails : A -> bool) l x : forall i, failing fails i (l ++ [x]) = failing fails i l ++ (if fails x then [i + length l] else []).
Proof.
  induction l as [|y l IH]; intros i; cbn [app failing length]; [rewrite Nat.add_0_r; destruct (fails x); reflexivity|].
  rewrite IH. replace (S i + length l) with (i + S (length l)) by lia. destruct (fails y); reflexivity.
Qed.
Lemma swap_remove_mid {A} (l : list A) x s : Permutation (swap_remove (length l) (l ++ x :: s)) (l ++ s) /\
  exists s', swap_remove (length l) (l ++ x :: s) = l ++ s' /\ Permutation s' s.
Proof.
  unfold swap_remove. destruct s as [|y s _] using rev_ind.
  - rewrite rev_app_distr. cbn [rev app]. rewrite rev_involutive, Nat.eqb_refl, app_nil_r. split; [reflexivity|]. exists []. split; [now rewrite app_nil_r|constructor].
  - replace (l ++ x :: s ++ [y]) with ((l ++ x :: s) ++ [y]) by now rewrite <- app_assoc. rewrite rev_app_distr. cbn [rev app]. rewrite rev_involutive.
    replace (Nat.eqb (length l) (length (l ++ x :: s))) with false by (symmetry; apply Nat.eqb_neq; rewrite app_length; cbn [length]; lia).
    rewrite firstn_app, Nat.sub_diag, firstn_all. cbn [firstn]. rewrite app_nil_r.
    replace (skipn (S (length l)) (l ++ x :: s)) with s.
    + split; [apply Permutation_app_head; rewrite Permutation_app_comm; reflexivity|]. exists (y :: s). split; [reflexivity|]. rewrite Permutation_app_comm. reflexivity.
    + rewrite skipn_app, skipn_all2 by lia. replace (S (length l) - length l) with 1 by lia. reflexivity.
Qed.
Lemma broadcast_from {A} (fails : A -> bool) l : forall s,
  Permutation (fold_left (fun acc i => swap_remove i acc) (rev (failing fails 0 l)) (l ++ s)) (filter (fun x => negb (fails x)) l ++ s).
Proof.
  induction l as [|x l IH] using rev_ind; intros s; [reflexivity|]. rewrite failing_app, filter_app. cbn [plus filter]. destruct (fails x) eqn:F; cbn [negb].
  - rewrite rev_app_distr. cbn [rev app fold_left]. rewrite <- app_assoc. cbn [app]. rewrite app_nil_r. destruct (swap_remove_mid l x s) as (_ & s' & E & P). rewrite E, IH.
    now apply Permutation_app_head.
  - rewrite app_nil_r, <- !app_assoc. apply IH.
Qed.
Lemma broadcast_kept {A} (fails : A -> bool) l : Permutation (broadcast fails l) (filter (fun x => negb (fails x)) l).
Proof. unfold broadcast. rewrite <- (app_nil_r l) at 2. rewrite broadcast_from. now rewrite app_nil_r. Qed.

(** ** The reload script *)
Lemma find_window_spec needle b : forall i, match find_window needle i b with
  | Some j => exists a c, b = a ++ needle ++ c /\ j = i + length a /\ forall a' c', b = a' ++ needle ++ c' -> length a <= length a'
  | None => forall a c, b <> a ++ needle ++ c
  end.
Proof.
  induction b as [|x b IH]; intros i; cbn [find_window].
  - match goal with |- context [if ?b then _ else _] => destruct b eqn:E end.
    + apply starts_with_spec in E. destruct E as [c E]. cbn iota. exists [], c. repeat split; [exact E|cbn; lia|intros; cbn; lia].
    + cbn iota. intros a c Q. destruct a; [|discriminate]. refine (Bool.diff_true_false (eq_trans (eq_sym _) E)). apply starts_with_spec. now exists c.
  - match goal with |- context [if ?b then _ else _] => destruct b eqn:E end.
    + apply starts_with_spec in E. destruct E as [c E]. cbn iota. exists [], c. repeat split; [exact E|cbn; lia|intros; cbn; lia].
    + assert (NE : forall c, x :: b <> needle ++ c) by (intros c Q; refine (Bool.diff_true_false (eq_trans (eq_sym _) E)); apply starts_with_spec; now exists c).
      cbn iota. specialize (IH (S i)). destruct (find_window needle (S i) b) as [j|].
      * destruct IH as (a & c & -> & -> & M). exists (x :: a), c. repeat split; [cbn [length]; lia|]. intros [|y a'] c' Q; [now apply NE in Q|]. injection Q as -> Q. apply M in Q. cbn [length]. lia.
      * intros [|y a] c Q; [now apply NE in Q|]. injection Q as -> Q. now apply IH in Q.
Qed.
Lemma inject_none js b : (forall a c, b <> a ++ lit "</body>" ++ c) -> inject js b = b.
Proof. intros N. unfold inject. pose proof (find_window_spec body_close b 0) as H. destruct (find_window _ 0 b); [|reflexivity]. destruct H as (a & c & E & _). now apply N in E. Qed.
Lemma inject_first js a c b : first_occurrence (lit "</body>") a c b ->
  inject js b = a ++ (lit "<script>" ++ js ++ lit "</script>") ++ lit "</body>" ++ c.
Proof.
  intros [E M]. unfold inject. pose proof (find_window_spec body_close b 0) as H. destruct (find_window _ 0 b) as [j|].
  - destruct H as (a' & c' & E' & -> & M'). pose proof (M _ _ E') as L1. pose proof (M' _ _ E) as L2. cbn [plus] in *.
    assert (LE : length a' = length a) by lia. rewrite LE, E, firstn_app, Nat.sub_diag, firstn_all, skipn_app, Nat.sub_diag, skipn_all. cbn [firstn skipn app]. rewrite app_nil_r.
    reflexivity.
  - exfalso. exact (H _ _ E).
Qed.

(** ** Error reports *)
Lemma preview_line checked line s ls : text_lines ls s -> (0 < line)%N -> preview checked line (Some s) = Ok (nth_error ls (N.to_nat (line - 1))).
Proof.
  intros T P. unfold preview. destruct (N.eqb_spec line 0) as [->|_]; [lia|]. now rewrite (lines_text _ _ T).
Qed.
Lemma place_show file line col : place file line col (file ++ [c_colon] ++ show_N line ++ [c_colon] ++ show_N col).
Proof. exists (show_N line), (show_N col). repeat split; try apply show_numeral; apply show_canonical. Qed.
Lemma spaces_succ n : spaces (S n) = repeat 32%N n ++ [32%N].
Proof. unfold spaces. change (S n) with (1 + n)%nat. rewrite Nat.add_comm, repeat_app. reflexivity. Qed.
Lemma report_preview checked file line col msg help s ls l : text_lines ls s -> (0 < line)%N -> nth_error ls (N.to_nat (line - 1)) = Some l ->
  exists rep, report checked file line col msg help (Some s) = Ok rep /\ with_preview file line col msg help l (N.to_nat col - 2) rep.
Proof.
  intros T P E. unfold report. rewrite (preview_line checked line s ls T P), E. eexists. split; [reflexivity|].
  exists (file ++ [c_colon] ++ show_N line ++ [c_colon] ++ show_N col), (show_N line), (repeat 32%N (length (show_N line))).
  split; [apply place_show|]. split; [apply show_numeral|]. split; [apply show_canonical|]. split; [reflexivity|].
  cbn [bind]. rewrite !spaces_succ. unfold caret_offset. replace (N.to_nat (col - 2)) with (N.to_nat col - 2)%nat by lia. unfold spaces.
  f_equal. destruct help; cbn [app]; rewrite <- !app_assoc; reflexivity.
Qed.
Lemma report_beyond checked file line col msg help s ls : text_lines ls s -> (0 < line)%N -> nth_error ls (N.to_nat (line - 1)) = None ->
  exists rep, report checked file line col msg help (Some s) = Ok rep /\ without_preview file line col msg help rep.
Proof.
  intros T P E. unfold report. rewrite (preview_line checked line s ls T P), E. eexists. split; [reflexivity|]. eexists. split; [apply place_show|reflexivity].
Qed.
Lemma report_plain checked file line col msg help contents : contents = None \/ (checked = false /\ line = 0%N) ->
  exists rep, report checked file line col msg help contents = Ok rep /\ without_preview file line col msg help rep.
Proof.
  intros [-> | [-> ->]]; [|destruct contents]; eexists; (split; [reflexivity|]; eexists; split; [apply place_show|reflexivity]).
Qed.
