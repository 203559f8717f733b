(** SaveFacts.v -- what is on the disk after a save (C39 to C42). *)

From Coq Require Import String List NArith ZArith Bool Lia.
From Verif Require Import Text Json Base Syntax Parse Tree Interp Build Disk SpecScope SpecTree SpecDisk.
From Verif Require Import TextFacts ScopeFacts TreeFacts PathFacts DiskFacts.
Import ListNotations.

(** ** Paths of a save *)
Lemma join_plain p n : plain n -> join_path p n = p ++ [n].
Proof.
  intros (N1 & N2 & N3 & NS). unfold join_path. rewrite (split_char_nil c_slash n NS). cbn [fold_left].
  assert (S : starts_with [c_slash] n = false).
  { destruct (starts_with [c_slash] n) eqn:E; [|reflexivity]. apply starts_with_spec in E. destruct E as [r ->]. exfalso. apply NS. now left. }
  rewrite S. unfold step_component. apply text_eqb_neq in N1. apply text_eqb_neq in N2. apply text_eqb_neq in N3. now rewrite N1, N2, N3.
Qed.
Lemma join_nil p : join_path p [] = p.
Proof. reflexivity. Qed.
Lemma join_dot p : join_path p [c_dot] = p.
Proof. reflexivity. Qed.
Lemma hidden_dec cf name : (negb (text_eqb name (lit "root.html")) && negb (text_eqb name (lit "md.html")) && (cf_data cf || negb (ends_with (lit ".json") name))) = false
  <-> hidden cf name.
Proof.
  unfold hidden, is_template. rewrite andb_false_iff, andb_false_iff, !negb_false_iff, orb_false_iff, negb_false_iff, !text_eqb_eq, ends_with_spec. tauto.
Qed.
Lemma stripped_dec cf name pc stem : stripped cf name pc stem <->
  (if cf_strip cf && negb (text_eqb name (lit "index.html")) && negb (is_ignored pc) then strip_suffix (lit ".html") name else None) = Some stem.
Proof.
  unfold stripped. destruct (cf_strip cf); cbn [andb]; [|split; [intros [E _]|]; discriminate].
  destruct (text_eqb name (lit "index.html")) eqn:E; cbn [andb negb].
  - apply text_eqb_eq in E. split; [intros (_ & X & _); contradiction|discriminate].
  - apply text_eqb_neq in E. assert (I : is_ignored pc = true <-> pc = PIgnored) by (destruct pc; cbn; split; congruence).
    destruct (is_ignored pc); cbn [negb].
    + split; [|discriminate]. intros (_ & _ & X & _). exfalso. apply X. now apply I.
    + rewrite strip_suffix_spec. split; [tauto|]. intros H. repeat split; try tauto. intros ->. now destruct I as [_ I]; specialize (I eq_refl).
Qed.
(** The call that makes an entry. *)
Definition op_of (p : path) (e : path * option bytes) : op :=
  match snd e with None => OMkDirTolerant (p ++ fst e) | Some b => OWrite (p ++ fst e) b end.
Scheme saves_ind2 := Induction for saves Sort Prop with saves_all_ind2 := Induction for saves_all Sort Prop.
Combined Scheme saves_both from saves_ind2, saves_all_ind2.
Lemma saves_ops cf p :
  (forall dir n l, saves cf dir n l -> save_recur cf (p ++ dir) n = map (op_of p) l) /\
  (forall dir ch l, saves_all cf dir ch l -> flat_map (save_recur cf (p ++ dir)) ch = map (op_of p) l).
Proof.
  apply (saves_both cf (fun dir n l _ => save_recur cf (p ++ dir) n = map (op_of p) l) (fun dir ch l _ => flat_map (save_recur cf (p ++ dir)) ch = map (op_of p) l)).
  - intros dir name b pc meta src H. apply hidden_dec in H. cbn [save_recur]. now rewrite H.
  - intros dir name stem b pc meta src H S P. cbn [save_recur]. apply stripped_dec in S. rewrite S, (join_plain _ _ P).
    destruct (negb _ && _ && _) eqn:E; [|now apply hidden_dec in E]. cbn. rewrite <- !app_assoc. reflexivity.
  - intros dir name stem b pc meta src H S P. cbn [save_recur]. apply stripped_dec in S. rewrite S.
    destruct (negb _ && _ && _) eqn:E; [|now apply hidden_dec in E].
    assert (J : join_path (p ++ dir) stem = p ++ dir) by (destruct P as [-> | ->]; [apply join_nil|apply join_dot]).
    rewrite J. cbn. now rewrite <- app_assoc.
  - intros dir name b pc meta src H S P. cbn [save_recur]. destruct (negb _ && _ && _) eqn:E; [|now apply hidden_dec in E].
    match goal with |- context [if ?c then strip_suffix ?a ?b else None] => destruct (if c then strip_suffix a b else None) as [stem|] eqn:F end; [now apply stripped_dec, S in F|]. rewrite (join_plain _ _ P). cbn. now rewrite <- app_assoc.
  - intros dir name ch src l P _ IH. cbn [save_recur map]. rewrite (join_plain _ _ P), <- app_assoc. f_equal. exact IH.
  - reflexivity.
  - intros dir c ch l l' _ IH _ IH'. cbn [flat_map]. now rewrite map_app, IH, IH'.
Qed.
(** Tame trees can be saved. *)
Lemma stem_plain name stem : plain name -> name = stem ++ lit ".html" -> stem <> [c_dot; c_dot] -> plain stem \/ stem = [] \/ stem = [c_dot].
Proof.
  intros (_ & _ & _ & NS) E N3. destruct (list_eq_dec N.eq_dec stem []) as [->|N1]; [right; now left|].
  destruct (list_eq_dec N.eq_dec stem [c_dot]) as [->|N2]; [right; now right|]. left. repeat split; auto.
  intros J. apply NS. rewrite E. apply in_app_iff. now left.
Qed.
Lemma tame_saves cf n : (forall m, inside m n -> tame cf m) -> forall dir, exists l, saves cf dir n l.
Proof.
  induction n as [name b pc meta src|name ch src IH] using node_ind2; intros T dir.
  - pose proof (T _ (in_here _)) as [P S].
    destruct (negb (text_eqb name (lit "root.html")) && negb (text_eqb name (lit "md.html")) && (cf_data cf || negb (ends_with (lit ".json") name))) eqn:E.
    + assert (H : ~ hidden cf name) by (intros H; apply hidden_dec in H; congruence).
      destruct (if cf_strip cf && negb (text_eqb name (lit "index.html")) && negb (is_ignored pc) then strip_suffix (lit ".html") name else None) as [stem|] eqn:F.
      * apply stripped_dec in F. pose proof F as (_ & _ & _ & G). destruct (stem_plain _ _ P G (S _ F)) as [Q|Q].
        -- eexists. eapply sv_page; eauto.
        -- eexists. eapply sv_nameless; eauto.
      * eexists. apply sv_file; auto. intros stem X. apply stripped_dec in X. congruence.
    + exists []. apply sv_hidden. now apply hidden_dec.
  - assert (A : forall dir', exists l, saves_all cf dir' ch l).
    { assert (T' : forall c m, In c ch -> inside m c -> tame cf m) by (intros c m I J; apply T; now apply in_child with c). clear T. intros dir'.
      induction IH as [|c ch IHc _ IHch]; [exists []; constructor|].
      destruct (IHc (fun m J => T' c m (or_introl eq_refl) J) dir') as [l L]. destruct IHch as [l' L']; [intros x m I; apply T'; now right|].
      exists (l ++ l'). now constructor. }
    destruct (A (dir ++ [name])) as [l L]. eexists. apply sv_dir; [exact (T _ (in_here _))|exact L].
Qed.
Lemma tame_saves_all cf ch : (forall c m, In c ch -> inside m c -> tame cf m) -> forall dir, exists l, saves_all cf dir ch l.
Proof.
  induction ch as [|c ch IH]; intros T dir; [exists []; constructor|].
  destruct (tame_saves cf c (fun m J => T c m (or_introl eq_refl) J) dir) as [l L]. destruct (IH (fun x m I => T x m (or_intror I)) dir) as [l' L'].
  exists (l ++ l'). now constructor.
Qed.

(** ** One call *)
Lemma is_edir_spec e : is_edir e = true <-> kind_of e = KDir.
Proof. destruct e as [[| |]|]; cbn; split; congruence. Qed.
Lemma is_edir_some e : is_edir e = true -> exists l, e = Some (EDir l).
Proof. destruct e as [[|l|]|]; cbn; try discriminate. now exists l. Qed.
Definition path_eq (p q : path) : {p = q} + {p <> q} := list_eq_dec (list_eq_dec N.eq_dec) p q.
Lemma put_effect P e d l : P <> [] -> lookup (parent P) d = Some (EDir l) -> (forall r, r <> [] -> what (P ++ r) d = KNone) ->
  (forall r, r <> [] -> lookup r e = None) -> forall q, what q (update P (Some e) d) = if path_eq P q then kind_of (Some e) else what q d.
Proof.
  intros NE L B E q. destruct (path_eq P q) as [->|N].
  - unfold what. now rewrite (update_at q e d l NE L).
  - destruct (list_eq_dec (list_eq_dec N.eq_dec) (firstn (length P) q) P) as [F|F].
    + assert (A : q = P ++ skipn (length P) q) by (rewrite <- F at 1; now rewrite firstn_skipn). set (r := skipn (length P) q) in *. clearbody r.
      assert (R : r <> []) by (intros ->; apply N; now rewrite A, app_nil_r). rewrite A. rewrite (B r R). unfold what.
      rewrite (update_below P r e d l NE L), (E r R). reflexivity.
    + apply update_outside. intros [r A]. apply F. rewrite A. rewrite firstn_app, Nat.sub_diag, firstn_all. cbn. now rewrite app_nil_r.
Qed.
Lemma below_none P d r : what P d = KNone -> what (P ++ r) d = KNone.
Proof. unfold what. rewrite lookup_app. destruct (lookup P d) as [[| |]|]; cbn; congruence. Qed.
Lemma below_file P d r b : what P d = KFile b -> r <> [] -> what (P ++ r) d = KNone.
Proof. unfold what. rewrite lookup_app. destruct (lookup P d) as [[| |]|]; cbn; try congruence. destruct r; [congruence|reflexivity]. Qed.
Lemma kind_none e : kind_of e = KNone -> e = None.
Proof. destruct e as [[| |]|]; cbn; congruence. Qed.
Lemma empty_below r : r <> [] -> lookup r (EDir []) = None.
Proof. destruct r; [congruence|reflexivity]. Qed.
Lemma file_below b r : r <> [] -> lookup r (EFile b) = None.
Proof. destruct r; [congruence|reflexivity]. Qed.
Lemma mkdir_effect P d d' : run_op (OMkDirTolerant P) d = Some d' ->
  (what P d <> KNone /\ d' = d) \/
  (what P d = KNone /\ what (parent P) d = KDir /\ forall q, what q d' = if path_eq P q then KDir else what q d).
Proof.
  cbn [run_op]. unfold mkdir. destruct (lookup P d) as [e|] eqn:L.
  - intros E; injection E as <-. left. split; [|reflexivity]. unfold what. rewrite L. destruct e; discriminate.
  - destruct (is_edir (lookup (parent P) d)) eqn:D; [|discriminate]. intros E. right.
    assert (W : what P d = KNone) by (unfold what; now rewrite L). split; [exact W|].
    split; [now apply is_edir_spec|]. apply is_edir_some in D. destruct D as [l D].
    assert (NE : P <> []) by (intros ->; discriminate L). assert (d' = update P (Some (EDir [])) d) by congruence. subst d'.
    apply (put_effect P (EDir []) d l NE D); [intros r _; now apply below_none|apply empty_below].
Qed.
Lemma write_effect P b d d' : run_op (OWrite P b) d = Some d' ->
  (what P d = KNone \/ exists b', what P d = KFile b') /\ forall q, what q d' = if path_eq P q then KFile b else what q d.
Proof.
  cbn [run_op]. unfold write_file. destruct (lookup P d) as [[b'|l|]|] eqn:L; try discriminate.
  - intros E. assert (W : what P d = KFile b') by (unfold what; now rewrite L). split; [right; now exists b'|].
    assert (d' = update P (Some (EFile b)) d) by congruence. subst d'. destruct P as [|c P'] eqn:EP.
    + cbn in L. injection L as ->. cbn. intros q. destruct q; cbn; [reflexivity|]. reflexivity.
    + assert (exists l, lookup (parent (c :: P')) d = Some (EDir l)) as [l D].
      { rewrite (app_removelast_last (l := c :: P') [] ltac:(discriminate)) in L. rewrite lookup_app in L. unfold parent.
        destruct (lookup (removelast (c :: P')) d) as [[|l|]|]; try discriminate. now exists l. }
      rewrite <- EP in *. apply (put_effect P (EFile b) d l); [now rewrite EP|exact D| |apply file_below]. intros r R. now apply (below_file _ _ _ b').
  - destruct (is_edir (lookup (parent P) d)) eqn:D; [|discriminate]. intros E. assert (W : what P d = KNone) by (unfold what; now rewrite L). split; [now left|].
    apply is_edir_some in D. destruct D as [l D]. assert (NE : P <> []) by (intros ->; discriminate L). assert (d' = update P (Some (EFile b)) d) by congruence. subst d'.
    apply (put_effect P (EFile b) d l NE D); [intros r _; now apply below_none|apply file_below].
Qed.

(** ** The directory grows entry by entry *)
Lemma last_exists l q b : In (q, Some b) l -> exists b', last_file l q b'.
Proof.
  induction l as [|[k x] l IH]; [intros []|]. intros I.
  assert (D : (exists b', In (q, Some b') l) \/ forall b', ~ In (q, Some b') l).
  { clear. induction l as [|[k x] l [[b' J]|J]]; [right; now intros b' []|left; exists b'; now right|].
    destruct (path_eq k q) as [->|NE]; [|right; intros b' [E|E]; [congruence|now apply J in E]].
    destruct x as [b|]; [left; exists b; now left|]. right; intros b' [E|E]; [congruence|now apply J in E]. }
  destruct D as [[b' J]|J].
  - assert (exists b', last_file l q b') as (b2 & l1 & l2 & -> & N).
    { revert b' J. clear - l. induction l as [|[k x] l IHl]; [intros ? []|]. intros b' J.
      assert (D : (exists b', In (q, Some b') l) \/ forall b', ~ In (q, Some b') l).
      { clear. induction l as [|[k x] l [[b' J]|J]]; [right; now intros b' []|left; exists b'; now right|].
        destruct (path_eq k q) as [->|NE]; [|right; intros b' [E|E]; [congruence|now apply J in E]].
        destruct x as [b|]; [left; exists b; now left|]. right; intros b' [E|E]; [congruence|now apply J in E]. }
      destruct D as [[b2 K]|K].
      - destruct (IHl b2 K) as (b3 & l1 & l2 & -> & N). exists b3, ((k, x) :: l1), l2. now split.
      - destruct J as [E|E]; [|now apply K in E]. injection E as -> ->. exists b', [], l. now split. }
    exists b2, ((k, x) :: l1), l2. now split.
  - destruct I as [E|E]; [|now apply J in E]. injection E as -> ->. exists b, [], l. now split.
Qed.
Lemma last_in l q b : last_file l q b -> In (q, Some b) l.
Proof. intros (l1 & l2 & -> & _). apply in_app_iff. right. now left. Qed.
Lemma last_snoc_other l q b k x : (k <> q \/ x = None) -> (last_file (l ++ [(k, x)]) q b <-> last_file l q b).
Proof.
  intros N. split.
  - intros (l1 & l2 & E & J). destruct l2 as [|y l2] using rev_ind.
    + apply app_inj_tail in E. destruct E as [_ E]. injection E as -> ->. destruct N; congruence.
    + clear IHl2. change (l1 ++ (q, Some b) :: l2 ++ [y]) with (l1 ++ ((q, Some b) :: l2) ++ [y]) in E. rewrite app_assoc in E. apply app_inj_tail in E. destruct E as [-> _].
      exists l1, l2. split; [reflexivity|]. intros b' I. apply (J b'). apply in_app_iff. now left.
  - intros (l1 & l2 & -> & J). exists l1, (l2 ++ [(k, x)]). split; [now rewrite <- app_assoc|]. intros b' I. apply in_app_iff in I. destruct I as [I|[I|[]]]; [now apply J in I|].
    injection I as -> ->. destruct N; congruence.
Qed.
Lemma last_snoc_same l q b b' : last_file (l ++ [(q, Some b)]) q b' <-> b' = b.
Proof.
  split.
  - intros (l1 & l2 & E & J). destruct l2 as [|y l2] using rev_ind.
    + apply app_inj_tail in E. destruct E as [_ E]. now injection E as ->.
    + clear IHl2. change (l1 ++ (q, Some b') :: l2 ++ [y]) with (l1 ++ ((q, Some b') :: l2) ++ [y]) in E. rewrite app_assoc in E. apply app_inj_tail in E. destruct E as [_ <-].
      exfalso. apply (J b). apply in_app_iff. right. now left.
  - intros ->. exists l, []. split; [reflexivity|]. now intros b' [].
Qed.
Lemma in_snoc {A} (l : list A) x y : In x (l ++ [y]) <-> In x l \/ x = y.
Proof. rewrite in_app_iff. cbn. intuition congruence. Qed.
Lemma exactly_step p l d e d' : exactly p l d -> run_op (op_of p e) d = Some d' -> exactly p (l ++ [e]) d'.
Proof.
  intros X R. destruct e as [q0 [b0|]]; unfold op_of in R; cbn [fst snd] in R.
  - apply write_effect in R. destruct R as [W R]. intros q. destruct (X q) as (X1 & X2 & X3). rewrite (R (p ++ q)).
    destruct (path_eq (p ++ q0) (p ++ q)) as [E|E].
    + apply app_inv_head in E. subst q0. repeat split.
      * intros E; injection E as <-. now apply last_snoc_same.
      * intros L. apply last_snoc_same in L. now subst.
      * discriminate.
      * intros [->|[I N]]; [|exfalso; apply (N b0), in_snoc; now right]. rewrite app_nil_r in *. destruct W as [W|[b' W]]; rewrite (proj2 X2 (or_introl eq_refl)) in W; discriminate.
      * discriminate.
    + assert (NE : q0 <> q) by congruence. repeat split.
      * intros H. apply last_snoc_other; [now left|]. now apply X1.
      * intros H. apply last_snoc_other in H; [|now left]. now apply X1.
      * intros H. apply X2 in H. destruct H as [H|[I N]]; [now left|right]. split; [apply in_snoc; now left|]. intros b J. apply in_snoc in J. destruct J as [J|J]; [now apply N in J|congruence].
      * intros H. apply X2. destruct H as [H|[I N]]; [now left|right]. apply in_snoc in I. destruct I as [I|I]; [|congruence]. split; [exact I|]. intros b J. apply (N b), in_snoc. now left.
      * exact X3.
  - apply mkdir_effect in R. destruct R as [[W ->]|(W & D & R)]; intros q; destruct (X q) as (X1 & X2 & X3).
    + repeat split.
      * intros H. apply last_snoc_other; [now right|]. now apply X1.
      * intros H. apply last_snoc_other in H; [|now right]. now apply X1.
      * intros H. apply X2 in H. destruct H as [H|[I N]]; [now left|right]. split; [apply in_snoc; now left|]. intros b J. apply in_snoc in J. destruct J as [J|J]; [now apply N in J|congruence].
      * intros [H|[I N]]; [apply X2; now left|]. apply in_snoc in I. destruct I as [I|I].
        -- apply X2. right. split; [exact I|]. intros b J. apply (N b), in_snoc. now left.
        -- injection I as <-. destruct (what (p ++ q) d) as [|b| |] eqn:K; try congruence. exfalso. pose proof (proj1 (X1 b) eq_refl) as K2. apply last_in in K2. apply (N b), in_snoc. now left.
      * exact X3.
    + rewrite (R (p ++ q)). destruct (path_eq (p ++ q0) (p ++ q)) as [E|E].
      * apply app_inv_head in E. subst q0. assert (NF : forall b, ~ In (q, Some b) l).
        { intros b J. apply last_exists in J. destruct J as [b' J]. apply X1 in J. congruence. }
        repeat split; try discriminate.
        -- intros H. apply last_snoc_other in H; [|now right]. apply last_in in H. now apply NF in H.
        -- intros _. right. split; [apply in_snoc; now right|]. intros b J. apply in_snoc in J. destruct J as [J|J]; [now apply NF in J|congruence].
      * assert (NE : q0 <> q) by congruence. repeat split.
        -- intros H. apply last_snoc_other; [now left|]. now apply X1.
        -- intros H. apply last_snoc_other in H; [|now left]. now apply X1.
        -- intros H. apply X2 in H. destruct H as [H|[I N]]; [now left|right]. split; [apply in_snoc; now left|]. intros b J. apply in_snoc in J. destruct J as [J|J]; [now apply N in J|congruence].
        -- intros H. apply X2. destruct H as [H|[I N]]; [now left|right]. apply in_snoc in I. destruct I as [I|I]; [|congruence]. split; [exact I|]. intros b J. apply (N b), in_snoc. now left.
        -- exact X3.
Qed.
Lemma run_ops_cons f o ops d d' : run_ops f (o :: ops) d = (d', true) -> exists f' d1, run_op o d = Some d1 /\ run_ops f' ops d1 = (d', true).
Proof.
  cbn [run_ops]. destruct f as [[[|k] junk]|]; [discriminate| |]; (destruct (run_op o d) as [d1|]; [|discriminate]); intros E; eauto.
Qed.
Lemma exactly_run p l : forall f l0 d d', exactly p l0 d -> run_ops f (map (op_of p) l) d = (d', true) -> exactly p (l0 ++ l) d'.
Proof.
  induction l as [|e l IH]; intros f l0 d d' X R.
  - cbn in R. injection R as <-. now rewrite app_nil_r.
  - cbn [map] in R. apply run_ops_cons in R. destruct R as (f' & d1 & R1 & R2). replace (l0 ++ e :: l) with ((l0 ++ [e]) ++ l) by now rewrite <- app_assoc.
    apply (IH f' (l0 ++ [e]) d1 d'); [|exact R2]. now apply (exactly_step p l0 d).
Qed.
Lemma exactly_fresh p d d1 d2 : ent_distinct d -> run_op (ORmTreeIfDir p) d = Some d1 -> run_op (OMkDir p) d1 = Some d2 -> exactly p [] d2.
Proof.
  intros D R1 R2. cbn [run_op] in R2. unfold mkdir in R2. destruct (lookup p d1) eqn:L; [discriminate|].
  destruct (is_edir (lookup (parent p) d1)) eqn:ED; [|discriminate]. assert (d2 = update p (Some (EDir [])) d1) by congruence. subst d2. clear R2.
  assert (NE : p <> []) by (intros ->; discriminate L). apply is_edir_some in ED. destruct ED as [l ED].
  intros q. unfold what. rewrite (update_below p q _ _ l NE ED).
  assert (NL : forall b, ~ last_file [] q b) by (intros b H; now apply last_in in H).
  destruct q as [|c q]; cbn; repeat split; try discriminate; try now (intros; exfalso; eapply NL; eauto).
  - now left.
  - intros [H|[[] _]]; discriminate.
Qed.
Lemma save_exactly f st p d d' out ch l : st_output st = Some out -> n_children out = Some ch -> saves_all (st_config st) [] ch l ->
  ent_distinct d -> save f st p d = (d', Ok tt) -> exactly p l d'.
Proof.
  intros O C S D. unfold save. rewrite O. destruct out as [|name ch' src]; [discriminate|]. cbn in C. injection C as ->. cbn [save_ops].
  destruct (run_ops _ _ _) as [d0 ok] eqn:R. destruct ok; [|discriminate]. intros E; injection E as ->.
  apply run_ops_cons in R. destruct R as (f1 & d1 & R1 & R). apply run_ops_cons in R. destruct R as (f2 & d2 & R2 & R).
  apply saves_ops with (p := p) in S. rewrite app_nil_r in S. rewrite S in R. change l with ([] ++ l). apply (exactly_run p l f2 [] d2 d'); [|exact R].
  now apply (exactly_fresh p d d1).
Qed.
Lemma save_outside f st p d out : st_output st = Some out -> tame_tree (st_config st) out -> same_outside p d (fst (save f st p d)).
Proof.
  intros O T. unfold save. rewrite O. destruct out as [|name ch src]; [apply same_outside_refl|]. cbn [save_ops].
  destruct (tame_saves_all (st_config st) ch (fun c m I J => T ch c m eq_refl I J) []) as [l L].
  apply saves_ops with (p := p) in L. rewrite app_nil_r in L. rewrite L.
  pose proof (run_ops_outside p (ORmTreeIfDir p :: OMkDir p :: map (op_of p) l)) as H. match type of H with ?A -> _ => assert (F : A) end.
  { constructor; [apply above_refl|]. constructor; [apply above_refl|]. apply Forall_forall. intros o I. apply in_map_iff in I. destruct I as ([q [b|]] & <- & _); apply above_app. }
  specialize (H F f d). destruct (run_ops f _ d) as [d0 ok]. exact H.
Qed.
