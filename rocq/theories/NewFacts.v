(** NewFacts.v -- [stuart new] (C63). *)

From Coq Require Import String List NArith ZArith Bool Lia.
From Verif Require Import Text Utf8 Json Base Syntax Parse Tree Interp Build Disk Cli Dev New SpecScope SpecTree SpecDisk SpecProject SpecNew.
From Verif Require Import TextFacts ScopeFacts TreeFacts DiskFacts SaveFacts ProjectFacts CliFacts DevFacts.
Import ListNotations.

(** ** Calls below a directory *)
Lemma lookup_app p : forall q d e, lookup p d = Some e -> lookup (p ++ q) d = lookup q e.
Proof.
  induction p as [|c p IH]; intros q d e L; cbn [lookup app] in *; [now injection L as ->|].
  destruct d as [|l|]; try discriminate. destruct (assoc c l) as [x|]; [|discriminate]. now apply IH.
Qed.
Lemma assoc_set c x l : assoc c (set_entry c x l) = Some x.
Proof.
  induction l as [|[k e] l IH]; cbn [set_entry assoc]; [now rewrite text_eqb_refl|].
  destruct (text_eqb k c) eqn:E; cbn [assoc]; rewrite E; [reflexivity|exact IH].
Qed.
Lemma set_set c x y l : set_entry c x (set_entry c y l) = set_entry c x l.
Proof.
  induction l as [|[k e] l IH]; cbn [set_entry]; [now rewrite text_eqb_refl|].
  destruct (text_eqb k c) eqn:E; cbn [set_entry]; rewrite E; [reflexivity|now rewrite IH].
Qed.
Lemma set_same c e l : assoc c l = Some e -> set_entry c e l = l.
Proof.
  induction l as [|[k x] l IH]; cbn [assoc set_entry]; [discriminate|]. destruct (text_eqb k c) eqn:E; [now intros [= ->]|]. intros A. now rewrite IH.
Qed.
Lemma lookup_update p x : forall d, p <> [] -> is_edir (lookup (parent p) d) = true -> lookup p (update p (Some x) d) = Some x.
Proof.
  induction p as [|c p IH]; intros d NE P; [contradiction|]. unfold parent in P. destruct p as [|c' p].
  - cbn in P. destruct d as [|l|]; try discriminate. cbn [update lookup]. now rewrite assoc_set.
  - change (removelast (c :: c' :: p)) with (c :: parent (c' :: p)) in P. cbn [lookup] in P. destruct d as [|l|]; try discriminate.
    destruct (assoc c l) as [e|] eqn:A; [|discriminate]. rewrite update_cons, A. cbn [lookup]. rewrite assoc_set. apply IH; [discriminate|exact P].
Qed.
Lemma update_same p : forall d e, lookup p d = Some e -> update p (Some e) d = d.
Proof.
  induction p as [|c p IH]; intros d e L; [now injection L as ->|]. cbn [lookup] in L. destruct d as [|l|]; try discriminate.
  destruct (assoc c l) as [x|] eqn:A; [|discriminate]. rewrite update_cons. destruct p as [|c' p].
  - injection L as ->. now rewrite set_same.
  - rewrite A, (IH x e L). now rewrite set_same.
Qed.
Lemma update_again p x y : forall d, update p (Some x) (update p (Some y) d) = update p (Some x) d.
Proof.
  induction p as [|c p IH]; intros d; [reflexivity|]. destruct d as [|l|]; try reflexivity. rewrite !update_cons. destruct p as [|c' p].
  - now rewrite update_cons, set_set.
  - destruct (assoc c l) as [e|] eqn:A; [|now rewrite update_cons, A]. now rewrite update_cons, assoc_set, IH, set_set.
Qed.
Lemma update_below p q x : q <> [] -> forall d e, lookup p d = Some e -> update (p ++ q) x d = update p (Some (update q x e)) d.
Proof.
  intros NQ. induction p as [|c p IH]; intros d e L; [now injection L as ->|]. cbn [lookup] in L. destruct d as [|l|]; try discriminate.
  destruct (assoc c l) as [y|] eqn:A; [|discriminate]. cbn [app]. rewrite !update_cons. destruct p as [|c' p].
  - injection L as ->. cbn [app]. destruct q as [|k q]; [contradiction|]. now rewrite A.
  - cbn [app]. rewrite A. f_equal. f_equal. now apply (IH y e L).
Qed.
Lemma parent_app p q : q <> [] -> parent (p ++ q) = p ++ parent q.
Proof. apply removelast_app. Qed.

Definition op_below (p : path) (o : op) : op :=
  match o with
  | ORmTreeIfDir q => ORmTreeIfDir (p ++ q) | OMkDir q => OMkDir (p ++ q)
  | OMkDirTolerant q => OMkDirTolerant (p ++ q) | OWrite q b => OWrite (p ++ q) b
  end.
Definition makes (o : op) : Prop := op_path o <> [] /\ match o with ORmTreeIfDir _ => False | _ => True end.
Lemma run_below p o d e : lookup p d = Some e -> makes o ->
  run_op (op_below p o) d = match run_op o e with Some e' => Some (update p (Some e') d) | None => None end.
Proof.
  intros L [NE M]. assert (LA : forall q, lookup (p ++ q) d = lookup q e) by (intros q; now apply lookup_app).
  destruct o as [q|q|q|q b]; cbn [op_path] in NE; [contradiction| | |]; cbn [op_below run_op]; unfold mkdir, write_file; rewrite LA, (parent_app _ _ NE), LA.
  - destruct (lookup q e); [reflexivity|]. destruct (is_edir _); [|reflexivity]. now rewrite (update_below _ _ _ NE d e L).
  - destruct (lookup q e); [now rewrite update_same|]. destruct (is_edir _); [|reflexivity]. now rewrite (update_below _ _ _ NE d e L).
  - destruct (lookup q e) as [[]|]; try reflexivity; [now rewrite (update_below _ _ _ NE d e L)|]. destruct (is_edir _); [|reflexivity]. now rewrite (update_below _ _ _ NE d e L).
Qed.
Lemma lookup_stays p d e e' : lookup p d = Some e -> lookup p (update p (Some e') d) = Some e'.
Proof.
  revert d. induction p as [|c p IH]; intros d L; [reflexivity|]. cbn [lookup] in L. destruct d as [|l|]; try discriminate.
  destruct (assoc c l) as [x|] eqn:A; [|discriminate]. rewrite update_cons. destruct p as [|c' p]; cbn [lookup].
  - now rewrite assoc_set.
  - rewrite A. cbn [lookup]. rewrite assoc_set. now apply IH.
Qed.
Lemma run_all_below p ops : Forall makes ops -> forall d e, lookup p d = Some e ->
  run_ops None (map (op_below p) ops) d = (update p (Some (fst (run_ops None ops e))) d, snd (run_ops None ops e)).
Proof.
  induction 1 as [|o ops M _ IH]; intros d e L; cbn [map run_ops fst snd]; [now rewrite update_same|].
  rewrite (run_below _ _ _ _ L M). destruct (run_op o e) as [e'|]; cbn [fst snd]; [|now rewrite update_same].
  rewrite (IH _ _ (lookup_stays _ _ _ e' L)). now rewrite update_again.
Qed.
Lemma run_ops_app ops ops' d d1 : run_ops None ops d = (d1, true) -> run_ops None (ops ++ ops') d = run_ops None ops' d1.
Proof.
  revert d. induction ops as [|o ops IH]; intros d R; cbn [run_ops app] in *; [now injection R as ->|].
  destruct (run_op o d); [|discriminate]. now apply IH.
Qed.

(** ** The new project *)
Lemma relative_dot cwd name : relative name -> join_path cwd (lit "./" ++ name) = join_path cwd name.
Proof.
  intros R. unfold join_path. change (lit "./" ++ name) with (c_dot :: c_slash :: name).
  assert (S : split_char c_slash (c_dot :: c_slash :: name) = ([c_dot], fst (split_char c_slash name) :: snd (split_char c_slash name))).
  { cbn [split_char]. change (c_slash =? c_slash)%N with true. destruct (split_char c_slash name). reflexivity. }
  rewrite S. destruct (split_char c_slash name) as [h r]. cbn [fst snd].
  assert (E : starts_with [c_slash] name = false).
  { destruct name as [|c name]; [reflexivity|]. unfold starts_with. cbn [strip_prefix]. destruct (N.eqb_spec c_slash c) as [<-|]; [now destruct (R name)|reflexivity]. }
  rewrite E. reflexivity.
Qed.
Definition inner_ops (manifest index root png style : bytes) : list op :=
  [OMkDir [lit "content"]; OMkDir [lit "static"]; OWrite [lit "stuart.toml"] manifest;
   OWrite [lit "content"; lit "index.html"] index; OWrite [lit "content"; lit "root.html"] root;
   OWrite [lit "static"; lit "lightning.png"] png; OWrite [lit "static"; lit "style.css"] style].
Lemma new_ops_below png toml g name p : new_ops (basic_site png toml) g name p =
  OMkDir p :: map (op_below p) (inner_ops (enc (new_manifest g name)) (enc basic_index) (enc basic_root) png (enc basic_style)).
Proof. reflexivity. Qed.
Lemma inner_run manifest index root png style :
  run_ops None (inner_ops manifest index root png style) (EDir []) = (fresh_project manifest index root png style None, true).
Proof. reflexivity. Qed.
Lemma what_dir p d : what p d = KDir -> is_edir (lookup p d) = true.
Proof. unfold what. destruct (lookup p d) as [[]|]; cbn; congruence. Qed.
Lemma what_none p d : what p d = KNone <-> lookup p d = None.
Proof. unfold what. destruct (lookup p d) as [[]|]; cbn; split; congruence. Qed.
Lemma new_run png toml g name p d : p <> [] -> what p d = KNone -> what (parent p) d = KDir ->
  run_ops None (new_ops (basic_site png toml) g name p) d =
  (update p (Some (fresh_project (enc (new_manifest g name)) (enc basic_index) (enc basic_root) png (enc basic_style) None)) d, true).
Proof.
  intros NE W P. rewrite new_ops_below. cbn [run_ops run_op]. unfold mkdir. apply what_none in W. rewrite W. apply what_dir in P. rewrite P.
  rewrite run_all_below with (e := EDir []); [|repeat (constructor; [split; [discriminate|exact I]|]); constructor|now apply lookup_update].
  rewrite inner_run. cbn [fst snd]. now rewrite update_again.
Qed.
Lemma lookup_other p x : forall q d, ~ above p q -> ~ above q p -> lookup q (update p x d) = lookup q d.
Proof.
  induction p as [|c p IH]; intros q d N1 N2; [exfalso; apply N1; now exists q|]. destruct q as [|k q]; [exfalso; apply N2; now exists (c :: p)|].
  destruct d as [|l|]; try reflexivity. rewrite update_cons.
  assert (AS : forall y, text_eqb k c = false -> assoc k (set_entry c y l) = assoc k l).
  { intros y E. clear - E. induction l as [|[j z] l IH]; cbn [set_entry assoc].
    - destruct (text_eqb c k) eqn:Q; [|reflexivity]. apply text_eqb_eq in Q. subst. now rewrite text_eqb_refl in E.
    - destruct (text_eqb j c) eqn:Q; cbn [assoc]; [|now rewrite IH]. apply text_eqb_eq in Q. subst j.
      destruct (text_eqb c k) eqn:Q; [|reflexivity]. apply text_eqb_eq in Q. subst. now rewrite text_eqb_refl in E. }
  assert (AR : text_eqb k c = false -> assoc k (remove_entry c l) = assoc k l).
  { intros E. clear - E. induction l as [|[j z] l IH]; cbn [remove_entry assoc]; [reflexivity|].
    destruct (text_eqb j c) eqn:Q; cbn [assoc]; [|now rewrite IH]. apply text_eqb_eq in Q. subst j.
    destruct (text_eqb c k) eqn:Q; [|reflexivity]. apply text_eqb_eq in Q. subst. now rewrite text_eqb_refl in E. }
  destruct (text_eqb k c) eqn:E.
  - apply text_eqb_eq in E. subst k. destruct p as [|c' p]; [exfalso; apply N1; now exists q|].
    destruct (assoc c l) as [e|] eqn:A; [|reflexivity]. cbn [lookup]. rewrite assoc_set, A. apply IH.
    + intros [r ->]. apply N1. now exists r.
    + intros [r R]. apply N2. exists r. cbn [app]. now rewrite R.
  - destruct p as [|c' p]; [destruct x; cbn [lookup]; now rewrite ?AS, ?AR|]. destruct (assoc c l) as [e|]; [|reflexivity]. cbn [lookup]. now rewrite AS.
Qed.
Lemma above_app p q r : above (p ++ q) (p ++ r) <-> above q r.
Proof.
  split; intros [s E]; exists s; [|now rewrite E, app_assoc]. rewrite <- app_assoc in E. now apply app_inv_head in E.
Qed.
Lemma above_down p q r : above (p ++ q) r -> above p r.
Proof. intros [s ->]. exists (q ++ s). now rewrite app_assoc. Qed.
Definition fresh (g : git) (no_git : bool) (name : text) (png : bytes) : ent :=
  fresh_project (enc (new_manifest g name)) (enc basic_index) (enc basic_root) png (enc basic_style) (if no_git then None else Some (enc ignored)).
Lemma new_made png toml g no_git cwd name d : let p := join_path cwd name in p <> [] -> what p d = KNone -> what (parent p) d = KDir ->
  no_git = true \/ (only_git (g_init g) /\ relative name) ->
  exists d', new_site (basic_site png toml) g no_git None None cwd name d = (d', Ok tt) /\ same_outside p d d' /\
    (forall q, ~ above [lit ".git"] q -> what (p ++ q) d' = what q (fresh g no_git name png)) /\
    what (p ++ [lit ".git"]) d' = (if no_git then KNone else KDir) /\
    lookup (p ++ [lit "content"]) d' = lookup [lit "content"] (fresh g no_git name png) /\
    lookup (p ++ [lit "static"]) d' = lookup [lit "static"] (fresh g no_git name png) /\
    (ent_distinct d -> ent_distinct d').
Proof.
  cbn zeta. set (p := join_path cwd name). intros NE W P G. unfold new_site. fold p. rewrite (new_run _ _ _ _ _ _ NE W P).
  set (t := fresh_project _ _ _ _ _ None). set (d1 := update p (Some t) d).
  assert (L1 : lookup p d1 = Some t) by (apply lookup_update; [exact NE|now apply what_dir]).
  assert (S1 : same_outside p d d1) by (intros q N; now apply update_outside).
  assert (D1 : ent_distinct d -> ent_distinct d1).
  { intros D. apply update_distinct; [exact D|]. intros e [= <-]. repeat first [apply ed_file|apply ed_dir|constructor]; vm_compute; intuition discriminate. }
  destruct no_git.
  - exists d1. split; [reflexivity|]. split; [exact S1|]. split; [intros q _; unfold what; now rewrite (lookup_app p q d1 t L1)|].
    split; [unfold what; now rewrite (lookup_app p _ d1 t L1)|].
    split; [now rewrite (lookup_app p _ d1 t L1)|]. split; [now rewrite (lookup_app p _ d1 t L1)|exact D1].
  - destruct G as [G|[G R]]; [discriminate|]. rewrite (relative_dot cwd name R). fold p. fold ignored.
    destruct (G p d1) as (G0 & G1 & G2 & G3); [unfold what; now rewrite L1|]. set (d2 := g_init g p d1) in *.
    assert (W2 : forall q, ~ above [lit ".git"] q -> what (p ++ q) d2 = what q t).
    { intros q N. rewrite G2 by now rewrite above_app. unfold what. now rewrite (lookup_app p q d1 t L1). }
    assert (NG : forall x, text_eqb x (lit ".git") = false -> forall r, ~ above [lit ".git"] (x :: r)).
    { intros x E r [s A]. injection A as ->. now rewrite text_eqb_refl in E. }
    assert (WI : what (p ++ [lit ".gitignore"]) d2 = KNone) by (rewrite W2; [reflexivity|apply NG; reflexivity]).
    assert (WP : what p d2 = KDir) by (rewrite <- (app_nil_r p) at 1; rewrite W2; [reflexivity|intros [s A]; discriminate]).
    cbn [run_ops run_op]. unfold write_file. apply what_none in WI. rewrite WI. rewrite parent_app by discriminate. change (parent [lit ".gitignore"]) with (@nil text). rewrite app_nil_r. apply what_dir in WP as WP'. rewrite WP'.
    set (d3 := update (p ++ [lit ".gitignore"]) _ d2).
    assert (R3 : run_op (OWrite (p ++ [lit ".gitignore"]) (enc ignored)) d2 = Some d3).
    { cbn [run_op]. unfold write_file. rewrite WI. rewrite parent_app by discriminate. change (parent [lit ".gitignore"]) with (@nil text). now rewrite app_nil_r, WP'. }
    apply write_effect in R3. destruct R3 as [_ R3].
    exists d3. split; [reflexivity|]. split; [|split; [|split; [|split; [|split]]]].
    + intros q N. rewrite R3. destruct (path_eq (p ++ [lit ".gitignore"]) q) as [<-|_]; [exfalso; apply N; eexists; reflexivity|].
      rewrite G2; [now apply S1|]. intros A. apply above_down in A. contradiction.
    + intros q N. rewrite R3. destruct (path_eq (p ++ [lit ".gitignore"]) (p ++ q)) as [E|NQ].
      * apply app_inv_head in E. now subst q.
      * rewrite (W2 q N). assert (Q : q <> [lit ".gitignore"]) by congruence. clear - Q. unfold t, fresh, fresh_project. destruct q as [|k q]; [reflexivity|].
        unfold what. cbn [app lookup assoc]. repeat match goal with |- context [text_eqb ?a k] => destruct (text_eqb a k) eqn:?; [reflexivity|] end.
        destruct (text_eqb (lit ".gitignore") k) eqn:E; [|reflexivity]. apply text_eqb_eq in E. subst k. destruct q; [contradiction|reflexivity].
    + rewrite R3. destruct (path_eq (p ++ [lit ".gitignore"]) (p ++ [lit ".git"])) as [E|_]; [apply app_inv_head in E; discriminate|exact G0].
    + unfold d3. rewrite lookup_other; [|rewrite above_app; intros [s A]; discriminate|rewrite above_app; intros [s A]; discriminate].
      rewrite G3; [|rewrite above_app; apply NG; reflexivity|rewrite above_app; intros [s A]; discriminate]. now rewrite (lookup_app p _ d1 t L1).
    + unfold d3. rewrite lookup_other; [|rewrite above_app; intros [s A]; discriminate|rewrite above_app; intros [s A]; discriminate].
      rewrite G3; [|rewrite above_app; apply NG; reflexivity|rewrite above_app; intros [s A]; discriminate]. now rewrite (lookup_app p _ d1 t L1).
    + intros D. apply update_distinct; [now apply G1, D1|]. intros e [= <-]. constructor.
Qed.
Lemma new_refuses tpl g no_git f' cwd name d : let p := join_path cwd name in what p d <> KNone \/ what (parent p) d <> KDir ->
  new_site tpl g no_git None f' cwd name d = (d, Err (E_Fs FE_Write)).
Proof.
  cbn zeta. intros W. unfold new_site. cbn [run_ops new_ops app run_op]. unfold mkdir.
  destruct (lookup (join_path cwd name) d) as [e|] eqn:L; [reflexivity|]. destruct W as [W|W]; [exfalso; apply W; now apply what_none|].
  destruct (is_edir _) eqn:E; [|reflexivity]. exfalso. apply W. unfold what. destruct (lookup (parent (join_path cwd name)) d) as [[]|]; try discriminate E. reflexivity.
Qed.
Lemma new_outside png toml g no_git f f' cwd name d : no_git = true \/ (only_git (g_init g) /\ relative name) ->
  same_outside (join_path cwd name) d (fst (new_site (basic_site png toml) g no_git f f' cwd name d)).
Proof.
  intros G. set (p := join_path cwd name). unfold new_site. fold p. rewrite new_ops_below.
  set (ops := map (op_below p) _).
  assert (B : forall o, In o ops -> above p (op_path o)).
  { intros o I. apply in_map_iff in I. destruct I as (o' & <- & _). destruct o'; eexists; reflexivity. }
  assert (S1 : forall f, same_outside p d (fst (run_ops f (OMkDir p :: ops) d))).
  { intros h q N. apply run_ops_touch. intros o [<-|I]; [exact N|]. apply B in I. intros A. apply N. destruct I as [r E]. rewrite E in A. now apply above_down in A. }
  specialize (S1 f). destruct (run_ops f (OMkDir p :: ops) d) as [d1 ok] eqn:R. cbn [fst] in S1. destruct ok; [|exact S1]. destruct no_git; [exact S1|].
  destruct G as [G|[G RL]]; [discriminate|]. rewrite (relative_dot cwd name RL). fold p.
  assert (W : what p d1 = KDir).
  { assert (exists f2 d0, run_op (OMkDir p) d = Some d0 /\ run_ops f2 ops d0 = (d1, true)) as (f2 & d0 & M & R2).
    { cbn [run_ops] in R. destruct f as [[[|k] j]|]; [discriminate| |]; destruct (run_op (OMkDir p) d) as [d0|]; try discriminate; eexists _, d0; now split; [|exact R]. }
    assert (W0 : what p d0 = KDir).
    { cbn [run_op] in M. unfold mkdir in M. destruct (lookup p d) eqn:L; [discriminate|]. destruct (is_edir (lookup (parent p) d)) eqn:P; [|discriminate].
      injection M as <-. unfold what. rewrite lookup_update; [reflexivity| |exact P]. intros E. rewrite E in L. discriminate. }
    replace d1 with (fst (run_ops f2 ops d0)) by now rewrite R2. rewrite run_ops_touch; [exact W0|].
    intros o I [r A]. unfold ops in I. apply in_map_iff in I. destruct I as (o' & <- & I).
    assert (N : op_path o' <> []) by (unfold inner_ops in I; cbn [In] in I; intuition (subst; discriminate)).
    replace (op_path (op_below p o')) with (p ++ op_path o') in A by now destruct o'.
    rewrite <- app_assoc in A. rewrite <- (app_nil_r p) in A at 1. apply app_inv_head in A. destruct (op_path o'); [contradiction|discriminate]. }
  destruct (G p d1 W) as (_ & _ & G2 & _).
  assert (S2 : same_outside p d (g_init g p d1)).
  { intros q N. rewrite G2; [now apply S1|]. intros A. apply above_down in A. contradiction. }
  assert (S3 : forall o, same_outside p d (fst (run_ops f' [OWrite (p ++ [lit ".gitignore"]) o] (g_init g p d1)))).
  { intros o q N. rewrite run_ops_touch; [now apply S2|]. intros o' [<-|[]] A. apply above_down in A. contradiction. }
  match goal with |- context [run_ops f' [OWrite _ ?o] _] => specialize (S3 o) end. destruct (run_ops f' _ _) as [d2 []]; exact S3.
Qed.

(** ** The manifest *)
Lemma plain_string t : toml_plain t -> toml_string t t.
Proof. induction 1 as [|c t (A & B & C & D) _ IH]; now constructor. Qed.
Lemma plain_lf t : toml_plain t -> ~ In c_lf t.
Proof. intros P I. unfold toml_plain in P. rewrite Forall_forall in P. apply P in I. destruct I as (_ & _ & [E|E] & _); [discriminate|]. revert E. vm_compute. discriminate. Qed.
Lemma plain_line key s : toml_plain s -> ~ In c_lf key -> let l := key ++ lit " = """ ++ s ++ lit """" in toml_line key s l /\ ~ In c_lf l.
Proof.
  intros P N. cbn zeta. split.
  - exists [], [c_space], [c_space], s, []. split; [reflexivity|]. split; [constructor|]. split; [repeat constructor|]. split; [repeat constructor|].
    split; [now apply plain_string|]. exists [], []. split; [reflexivity|]. split; [constructor|now left].
  - intros I. rewrite !in_app_iff in I. destruct I as [I|[I|[I|I]]]; [contradiction|vm_compute in I; intuition discriminate|now apply plain_lf in I|vm_compute in I; intuition discriminate].
Qed.
Lemma manifest_read g name : toml_plain name ->
  (forall n e, g_name g = Some n -> g_email g = Some e -> toml_plain n /\ toml_plain e) ->
  site_manifest (new_manifest g name) name (known_author (g_name g) (g_email g)).
Proof.
  intros PN PA. destruct (plain_line (lit "name") name PN) as [L NL]; [vm_compute; intuition discriminate|].
  exists (lit "name" ++ lit " = """ ++ name ++ lit """"). split; [exact L|]. split; [exact NL|]. unfold new_manifest, known_author.
  destruct (g_name g) as [n|], (g_email g) as [e|];
    [|rewrite <- ?app_assoc; reflexivity|rewrite <- ?app_assoc; reflexivity|rewrite <- ?app_assoc; reflexivity].
  destruct (PA n e eq_refl eq_refl) as [Pn Pe].
  assert (Q : toml_plain (n ++ lit " <" ++ e ++ lit ">")).
  { apply Forall_app. split; [exact Pn|]. apply Forall_app. split; [repeat (apply Forall_cons; [split; [discriminate|split; [discriminate|split; [now right|discriminate]]]|]); apply Forall_nil|]. apply Forall_app. split; [exact Pe|]. repeat (apply Forall_cons; [split; [discriminate|split; [discriminate|split; [now right|discriminate]]]|]); apply Forall_nil. }
  destruct (plain_line (lit "author") _ Q) as [L' NL']; [vm_compute; intuition discriminate|].
  eexists. split; [exact L'|]. split; [exact NL'|]. rewrite <- !app_assoc. reflexivity.
Qed.
Definition simple_init (p : path) (d : ent) : ent :=
  if is_edir (lookup p d) then update (p ++ [lit ".git"]) (Some (EDir [])) d else update p (Some (EDir [(lit ".git", EDir [])])) d.
Lemma simple_only : only_git simple_init.
Proof.
  intros p d W. apply what_dir in W. unfold simple_init. rewrite W. split; [|split; [|split]].
  - unfold what. rewrite lookup_update; [reflexivity|now destruct p|]. rewrite parent_app by discriminate. change (parent [lit ".git"]) with (@nil text). now rewrite app_nil_r.
  - intros D. apply update_distinct; [exact D|]. intros e [= <-]. constructor; constructor.
  - intros q N. now apply update_outside.
  - intros q N1 N2. now apply lookup_other.
Qed.
Definition quote_name : text := [97; 34; 98]%N.
Definition no_user : git := Git None None simple_init.
Lemma no_manifest n a : ~ site_manifest (new_manifest no_user quote_name) n a.
Proof.
  intros (l & L & NL & E).
  assert (X : l = lit "name = """ ++ quote_name ++ lit """").
  { assert (T : exists r, lit "[site]" ++ [c_lf] ++ (lit "name = """ ++ quote_name ++ lit """") ++ [c_lf] = lit "[site]" ++ [c_lf] ++ l ++ c_lf :: r).
    { destruct a as [a|]; [destruct E as (l' & _ & _ & E); exists (l' ++ [c_lf])|exists []]; exact E. }
    destruct T as [r T]. apply app_inv_head in T. injection T as T.
    assert (G : forall x y, ~ In c_lf x -> ~ In c_lf y -> forall r r', x ++ c_lf :: r = y ++ c_lf :: r' -> x = y).
    { clear. induction x as [|c x IH]; intros [|c' y] NX NY s s' E; cbn [app] in E.
      - reflexivity.
      - injection E as <- _. exfalso. apply NY. now left.
      - injection E as -> _. exfalso. apply NX. now left.
      - injection E as -> E. f_equal. apply (IH y) with s s'; [intros I; apply NX; now right|intros I; apply NY; now right|exact E]. }
    symmetry. refine (G _ _ _ NL [] r _); [vm_compute; intuition discriminate|]. exact T. }
  subst l. destruct L as (w1 & w2 & w3 & u & r & L & S1 & S2 & S3 & U & LE).
  destruct S1 as [|c w1 [-> | ->] S1]; [|discriminate L|discriminate L]. cbn in L. injection L as L.
  destruct S2 as [|c w2 [-> | ->] S2]; [discriminate L| |discriminate L]. cbn in L. injection L as L.
  destruct S2 as [|c w2 [-> | ->] S2]; [|discriminate L|discriminate L]. cbn in L. injection L as L.
  destruct S3 as [|c w3 [-> | ->] S3]; [discriminate L| |discriminate L]. cbn in L. injection L as L.
  destruct S3 as [|c w3 [-> | ->] S3]; [|discriminate L|discriminate L]. cbn in L. injection L as L.
  destruct U as [|c t s A B C D U| | | | | |]; try discriminate L. cbn in L. injection L as L1 L.
  destruct U as [|c' t s' A' B' C' D' U| | | | | |]; try discriminate L; cbn in L; [|injection L as L2 L; now destruct A'].
  injection L as L. subst r. destruct LE as (w & x & L' & W & R).
  destruct W as [|y w [-> | ->] W]; [|discriminate L'|discriminate L']. cbn in L'. destruct R as [-> |[z ->]]; discriminate L'.
Qed.
Lemma outside_changes : exists g cwd name d, only_git (g_init g) /\ let p := join_path cwd name in
  p <> [] /\ what p d = KNone /\ what (parent p) d = KDir /\
  snd (new_site (basic_site [] []) g false None None cwd name d) = Ok tt /\
  ~ same_outside p d (fst (new_site (basic_site [] []) g false None None cwd name d)).
Proof.
  exists no_user, [lit "w"], (lit "/x"), (EDir [(lit "w", EDir [])]). split; [exact simple_only|]. cbn zeta.
  split; [discriminate|]. split; [reflexivity|]. split; [reflexivity|]. split; [vm_compute; reflexivity|].
  intros S. specialize (S [lit "w"; lit "x"]). vm_compute in S. discriminate S. intros [r E]. discriminate.
Qed.
Lemma manifest_spoilt : exists g name, forall n a, ~ site_manifest (new_manifest g name) n a.
Proof. exists no_user, quote_name. exact no_manifest. Qed.
Lemma new_creates png toml g no_git cwd name d : let p := join_path cwd name in
  p <> [] -> what p d = KNone -> what (parent p) d = KDir -> no_git = true \/ (only_git (g_init g) /\ relative name) ->
  exists d', new_site (basic_site png toml) g no_git None None cwd name d = (d', Ok tt) /\ same_outside p d d' /\
    (forall q, ~ above [lit ".git"] q -> what (p ++ q) d' =
       what q (fresh_project (enc (new_manifest g name)) (enc basic_index) (enc basic_root) png (enc basic_style) (if no_git then None else Some (enc ignored)))) /\
    what (p ++ [lit ".git"]) d' = (if no_git then KNone else KDir).
Proof.
  cbn zeta. intros A B C D. destruct (new_made png toml g no_git cwd name d A B C D) as (d' & E & F & G & H & _). exists d'. now repeat (split; [assumption|]).
Qed.
