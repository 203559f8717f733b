(** ShippedFacts.v -- lemmas for C81. *)

From Coq Require Import String List NArith ZArith Bool Lia.
From Verif Require Import Text TextFacts Utf8 Json Base Syntax Parse Tree Interp Build Shipped SpecScope SpecTree SpecPlugins SpecShipped.
From Verif Require Import TreeFacts ViewFacts LocalFacts PluginFacts.
From Verif Require Import SpecTemplate.
Import ListNotations.

Section Png.
Variable o : bytes -> text + bytes.

(** Loaded trees without and with the plugin. *)
Inductive swap : node -> node -> Prop :=
| sw_other name b pc m src : ~ is_png src -> swap (NFile name b pc m src) (NFile name b pc m src)
| sw_png name b m src : is_png src -> name = last src [] -> swap (NFile name b PNone m src) (NFile name b (PCustom (png_processor o b)) m src)
| sw_dir name ch ch' src : Forall2 swap ch ch' -> swap (NDir name ch src) (NDir name ch' src).

Lemma swap_name n n' : swap n n' -> n_name n' = n_name n.
Proof. now destruct 1. Qed.
Lemma find_swap c ch ch' : Forall2 swap ch ch' -> match find_child c ch, find_child c ch' with Some m, Some m' => swap m m' | None, None => True | _, _ => False end.
Proof.
  unfold find_child. induction 1 as [|x x' ch ch' S F IH]; cbn [find]; [exact I|]. rewrite (swap_name _ _ S). destruct (text_eqb (n_name x) c); [exact S|exact IH].
Qed.
Lemma walk_swap p : forall n n', swap n n' -> match walk n p, walk n' p with Some m, Some m' => swap m m' | None, None => True | _, _ => False end.
Proof.
  induction p as [|c p IH]; intros n n' S; cbn [walk]; [exact S|]. destruct S as [| |name ch ch' src F]; cbn [n_children]; try exact I.
  pose proof (find_swap c ch ch' F) as H. destruct (find_child c ch) as [m|], (find_child c ch') as [m'|]; try contradiction; [now apply IH|exact I].
Qed.
Lemma values_swap {E} ch ch' : Forall2 swap ch ch' -> @md_values E ch = md_values ch'.
Proof.
  induction 1 as [|x x' ch ch' S F IH]; [reflexivity|]. cbn [md_values]. destruct S; cbn [n_parsed]; rewrite ?IH; reflexivity.
Qed.
Lemma swap_views h n n' toks : swap n n' -> views (World h n toks) (World h n' toks) /\ views (World h n' toks) (World h n toks).
Proof.
  intros S. split; (split; auto; cbn [w_toks]; intros t; [intros f st vs I T; unfold for_values, get_at_path; cbn [w_input]; destruct (ff_type f); [| |intros E; now exists vs]|intros v file s s' I T; unfold exec_import, get_at_path; cbn [w_input]]).
  all: destruct (components _) as [l|]; [|try discriminate; auto]; pose proof (walk_swap l n n' S) as H; destruct (walk n l) as [m|], (walk n' l) as [m'|]; try contradiction; try discriminate; auto.
  all: destruct H as [name b pc m0 src NP|name b m0 src P L|name ch ch' src F]; try discriminate; try (intros E; now exists vs); try (rewrite (values_swap _ _ F)); try (intros E; now exists vs); auto.
Qed.
Lemma swap_pr h meta vars n n' : swap n n' -> pr_views (fun _ => True) (build_pr h meta vars n) (build_pr h meta vars n') /\ pr_views (fun _ => True) (build_pr h meta vars n') (build_pr h meta vars n).
Proof.
  intros S. split; (split; [reflexivity|]; split; [reflexivity|]); [exists n, n'|exists n', n]; (split; [reflexivity|]; split; [reflexivity|]); intros toks _; now apply (swap_views h n n' toks S).
Qed.

(** Two results that are good together. *)
Definition both {A B E} (R : A -> B -> Prop) (r : res E A) (r' : res E B) : Prop :=
  (forall x, r = Ok x -> exists x', r' = Ok x' /\ R x x') /\ (forall x', r' = Ok x' -> exists x, r = Ok x /\ R x x').
Lemma both_refl {A E} (R : A -> A -> Prop) (r : res E A) : (forall x, r = Ok x -> R x x) -> both R r r.
Proof. intros H. split; intros x E1; exists x; auto. Qed.
Lemma both_map {A A' B B' E} (Q : A -> A' -> Prop) (R : B -> B' -> Prop) (f : A -> res E B) (g : A' -> res E B') l l' :
  Forall2 Q l l' -> (forall x x', In x l -> Q x x' -> both R (f x) (g x')) -> both (Forall2 R) (map_res f l) (map_res g l').
Proof.
  intros F H. split; intros ys M; apply map_res_ok in M.
  - assert (X : exists ys', Forall2 (fun x y => g x = Ok y) l' ys' /\ Forall2 R ys ys').
    { revert ys M. induction F as [|x x' l l' q F IH]; intros ys M; inversion M as [|? y ? ys0 E1 M0]; subst; [exists []; split; constructor|].
      destruct (IH (fun a a' i => H a a' (or_intror i)) _ M0) as (ys' & G & K). destruct (proj1 (H x x' (or_introl eq_refl) q) y E1) as (y' & Gy & Ry). exists (y' :: ys'). split; constructor; auto. }
    destruct X as (ys' & G & K). exists ys'. split; [now apply map_res_ok|exact K].
  - assert (X : exists ys', Forall2 (fun x y => f x = Ok y) l ys' /\ Forall2 R ys' ys).
    { revert ys M. induction F as [|x x' l l' q F IH]; intros ys M; inversion M as [|? y ? ys0 E1 M0]; subst; [exists []; split; constructor|].
      destruct (IH (fun a a' i => H a a' (or_intror i)) _ M0) as (ys' & G & K). destruct (proj2 (H x x' (or_introl eq_refl) q) y E1) as (y' & Gy & Ry). exists (y' :: ys'). split; constructor; auto. }
    destruct X as (ys' & G & K). exists ys'. split; [now apply map_res_ok|exact K].
Qed.
Lemma both_dir {E} (R : list node -> list node -> Prop) (Q : node -> node -> Prop) (r r' : res E (list node)) name src :
  both R r r' -> (forall ch ch', R ch ch' -> Q (NDir name ch src) (NDir name ch' src)) -> both Q (bind r (fun ch => Ok (NDir name ch src))) (bind r' (fun ch => Ok (NDir name ch src))).
Proof.
  intros [B1 B2] H. split; intros x.
  - destruct r as [ch| | |]; cbn [bind]; try discriminate. intros E1; injection E1 as <-. destruct (B1 _ eq_refl) as (ch' & -> & K). eexists. split; [reflexivity|auto].
  - destruct r' as [ch| | |]; cbn [bind]; try discriminate. intros E1; injection E1 as <-. destruct (B2 _ eq_refl) as (ch' & -> & K). eexists. split; [reflexivity|auto].
Qed.

(** Loading. *)
Variables (h : host) (ps1 ps2 : list plugin).
Hypothesis free : forall pl, In pl (ps1 ++ ps2) -> ~ handles pl (lit "png").
Lemma fn_same n : find_plugin n (fns (ps1 ++ imgopt o :: ps2)) = find_plugin n (fns (ps1 ++ ps2)).
Proof. rewrite !find_fns, !first_app. destruct (first_of _ ps1); reflexivity. Qed.
Lemma np_other e : e <> lit "png" -> find_node_parser e (ps1 ++ imgopt o :: ps2) = find_node_parser e (ps1 ++ ps2).
Proof.
  intros N. rewrite !find_nps, !first_app. destruct (first_of _ ps1); [reflexivity|]. cbn [first_of]. unfold np_in at 1. cbn [imgopt pl_parsers find png_parser npa_exts existsb].
  apply text_eqb_neq in N. now rewrite N.
Qed.
Lemma none_first (l : list plugin) : (forall pl, In pl l -> ~ handles pl (lit "png")) -> first_of (np_in (lit "png")) l = None.
Proof.
  induction l as [|p l IH]; intros H; [reflexivity|]. cbn [first_of]. destruct (np_in (lit "png") p) as [np|] eqn:X; [exfalso; apply (H p (or_introl eq_refl)); exact (np_handles _ _ _ X)|]. apply IH. intros pl I. apply H. now right.
Qed.
Lemma np_png : find_node_parser (lit "png") (ps1 ++ ps2) = None /\ find_node_parser (lit "png") (ps1 ++ imgopt o :: ps2) = Some (png_parser o).
Proof.
  rewrite !find_nps. split; [now apply none_first|]. rewrite first_app, none_first by (intros pl I; apply free; apply in_or_app; now left). reflexivity.
Qed.
Lemma create_swap : forall e p name, match e with EFile _ => name = last p [] | _ => True end ->
  both swap (create_from h (ps1 ++ ps2) true p name e) (create_from h (ps1 ++ imgopt o :: ps2) true p name e).
Proof.
  fix IH 1. intros [b|l|] p name N; cbn [create_from]; [clear IH| |split; discriminate].
  - subst name. unfold create_from_file. destruct (extension (last p [])) as [e|] eqn:X.
    2: { cbn [bind]. apply both_refl. intros x E. injection E as <-. constructor. intros P. unfold is_png in P. apply extension_spec in P. pose proof (eq_trans (eq_sym X) P) as Y. discriminate Y. }
    assert (NP : e <> lit "png" -> ~ is_png p) by (intros N P; unfold is_png in P; apply extension_spec in P; apply N; pose proof (eq_trans (eq_sym X) P) as Y; now injection Y).
    destruct (text_eqb e (lit "html")) eqn:E1.
    { apply text_eqb_eq in E1. destruct (ok_or _ _); cbn [bind]; try (split; discriminate). rewrite (html_alike _ _ _ _ (fun n _ => fn_same n)). apply both_refl.
      destruct (map_err _ _); cbn [bind]; try discriminate. intros x E; injection E as <-. constructor. apply NP. subst e. discriminate. }
    destruct (text_eqb e (lit "md")) eqn:E2.
    { apply text_eqb_eq in E2. destruct (ok_or _ _); cbn [bind]; try (split; discriminate). rewrite (markdown_alike _ _ _ _ (fun n _ => fn_same n)). apply both_refl.
      destruct (map_err _ _); cbn [bind]; try discriminate. intros x E; injection E as <-. constructor. apply NP. subst e. discriminate. }
    destruct (text_eqb e (lit "json")) eqn:E3.
    { apply text_eqb_eq in E3. destruct (ok_or _ _); cbn [bind]; try (split; discriminate). apply both_refl.
      destruct (ok_or _ _); cbn [bind]; try discriminate. intros x E; injection E as <-. constructor. apply NP. subst e. discriminate. }
    destruct (text_eqb e (lit "png")) eqn:E4.
    + apply text_eqb_eq in E4. subst e. destruct np_png as [-> ->]. cbn [bind png_parser npa_parse]. assert (P : is_png p) by (now apply extension_spec).
      split; intros x E; injection E as <-; eexists; (split; [reflexivity|]); now constructor.
    + apply text_eqb_neq in E4. rewrite (np_other e E4). apply both_refl. intros x. destruct (find_node_parser e (ps1 ++ ps2)) as [np|]; [destruct (npa_parse np b p)|]; cbn [bind]; try discriminate; intros E; injection E as <-; constructor; auto.
  - apply both_dir with (R := Forall2 swap); [|now constructor].
    assert (X : Forall2 (fun ne ne' => ne = ne' /\ both swap (create_from h (ps1 ++ ps2) true (p ++ [fst ne]) (fst ne) (snd ne)) (create_from h (ps1 ++ imgopt o :: ps2) true (p ++ [fst ne]) (fst ne) (snd ne))) l l).
    { revert l. fix IHl 1. intros [|[k e] l]; constructor; [split; [reflexivity|]|apply IHl]. apply IH. cbn [fst snd]. destruct e; auto. now rewrite last_last. }
    apply (both_map _ _ _ _ _ _ X). intros x x' _ [<- B]. exact B.
Qed.

(** Rendering the bodies of markdown files. *)
Lemma preprocess_swap pr pr' : pr_views (fun _ => True) pr pr' -> pr_views (fun _ => True) pr' pr -> forall n n', swap n n' -> both swap (preprocess pr n) (preprocess pr' n').
Proof.
  intros V V'. induction n as [name b pc m src|name ch src IH] using node_ind2; intros n' S; inversion S as [? ? ? ? ? NP| ? ? ? ? P|? ? ch' ? F]; subst; cbn [preprocess].
  - destruct pc as [t|md|v|c| |]; try (apply both_refl; intros x E; injection E as <-; constructor; assumption).
    split; intros x.
    + destruct (preprocess_markdown pr src md) as [m'| | |] eqn:E; cbn [map_err bind]; try discriminate. intros E1; injection E1 as <-. rewrite (body_view _ _ _ _ _ _ V I E). cbn [map_err bind]. eexists. split; [reflexivity|now constructor].
    + destruct (preprocess_markdown pr' src md) as [m'| | |] eqn:E; cbn [map_err bind]; try discriminate. intros E1; injection E1 as <-. rewrite (body_view _ _ _ _ _ _ V' I E). cbn [map_err bind]. eexists. split; [reflexivity|now constructor].
  - split; intros x E; injection E as <-; eexists; (split; [reflexivity|now constructor]).
  - apply both_dir with (R := Forall2 swap); [|now constructor]. apply (both_map _ _ _ _ _ _ F). intros x x' I S'. rewrite Forall_forall in IH. now apply IH.
Qed.

(** The pages. *)
Lemma env_swap e ch ch' : Forall2 swap ch ch' -> env_update e ch' = env_update e ch.
Proof.
  unfold env_update. intros F. revert e. induction F as [|x x' ch ch' S F IH]; intros e; cbn [fold_left]; [reflexivity|]. rewrite IH. f_equal. unfold env_child. destruct S; reflexivity.
Qed.
Lemma process_meta pr e name b pc src out : process_file pr e name b pc src = Ok out ->
  exists nm bs, out = NFile nm bs PNone (if pr_meta pr then parsed_to_json pc else None) src.
Proof. unfold process_file. match goal with |- bind ?x _ = _ -> _ => destruct x end; cbn [bind]; try discriminate. intros E; injection E as <-. eexists _, _. reflexivity. Qed.
Lemma process_same pr pr' e name b pc src out : pr_views (fun _ => True) pr pr' -> pr_meta pr' = pr_meta pr -> process_file pr e name b pc src = Ok out -> process_file pr' e name b pc src = Ok out.
Proof.
  intros V M E. destruct (process_view _ _ _ _ _ _ _ _ V E) as (nm & bs & m & m' & -> & E'). destruct (process_meta _ _ _ _ _ _ _ E) as (? & ? & X). injection X as _ _ X. destruct (process_meta _ _ _ _ _ _ _ E') as (? & ? & X'). injection X' as _ _ X'. rewrite M in X'. congruence.
Qed.
Lemma process_png pr e b pc src : is_png src -> process_file pr e (last src []) b pc src =
  let? out := (match pc with
       | PHtml toks => map_err E_Process (process_html pr e src toks)
       | PMarkdown m => map_err E_Process (process_markdown pr e src (last src []) m)
       | PCustom c => match np_process c e with inr o => Ok o | inl err => Err (E_Plugin err) end
       | _ => Ok (POut None None)
       end) in Ok (NFile (match po_name out with Some n => n | None => last src [] end) (match po_contents out with Some b => b | None => b end) PNone (if pr_meta pr then parsed_to_json pc else None) src).
Proof.
  intros P. unfold process_file. assert (T : is_template_name (last src []) = false); [|now rewrite T]. unfold is_template_name. apply orb_false_iff.
  split; apply text_eqb_neq; intros E; unfold is_png in P; apply extension_spec in P; rewrite E in P; vm_compute in P; discriminate.
Qed.
Lemma build_swap pr pr' : pr_views (fun _ => True) pr pr' -> pr_views (fun _ => True) pr' pr -> pr_meta pr' = pr_meta pr -> forall n n' e, swap n n' ->
  forall out', build_node pr' e n' = Ok out' <-> exists out, build_node pr e n = Ok out /\ optimised o (pr_meta pr) out out'.
Proof.
  intros V V' M. induction n as [name b pc m src|name ch src IH] using node_ind2; intros n' e S out'; inversion S as [? ? ? ? ? NP| ? ? ? ? P|? ? ch' ? F]; subst; cbn [build_node].
  - split.
    + intros E. exists out'. split; [now apply (process_same pr' pr)|]. destruct (process_meta _ _ _ _ _ _ _ E) as (nm & bs & ->). now constructor.
    + intros (out & E & O). destruct (process_meta _ _ _ _ _ _ _ E) as (nm & bs & ->). inversion O; subst; [now apply (process_same pr pr')|contradiction].
  - rewrite !(process_png _ _ _ _ _ P). cbn [bind png_processor np_process po_name po_contents]. destruct (o b) as [msg|b'] eqn:O; cbn [bind po_name po_contents].
    + split; [discriminate|]. intros (out & E & OP). injection E as <-. inversion OP; subst; [contradiction|congruence].
    + rewrite M. cbn [parsed_to_json png_processor np_json]. replace (if pr_meta pr then None else None) with (@None value) by (now destruct (pr_meta pr)). split.
      * intros E. injection E as <-. eexists. split; [reflexivity|]. now constructor.
      * intros (out & E & OP). injection E as <-. inversion OP; subst; [contradiction|]. congruence.
  - rewrite (env_swap _ _ _ F). split.
    + destruct (map_res (build_node pr' _) ch') as [l'| | |] eqn:MR; cbn [bind]; try discriminate. intros E; injection E as <-. apply map_res_ok in MR.
      assert (X : exists l, Forall2 (fun x y => build_node pr (env_update e ch) x = Ok y) ch l /\ Forall2 (optimised o (pr_meta pr)) l l').
      { generalize dependent (env_update e ch). intros ee. clear S. revert l' IH. induction F as [|x x' ch ch' S F IHF]; intros l' IH MR; inversion MR as [|? y ? l0 E1 M0]; subst; [exists []; split; constructor|].
        inversion IH as [|? ? I1 I2]; subst. destruct (IHF _ I2 M0) as (l & G & K). apply (I1 x' ee S) in E1. destruct E1 as (y0 & Gy & Ry). exists (y0 :: l). split; constructor; auto. }
      destruct X as (l & G & K). apply map_res_ok in G. rewrite G. cbn [bind]. eexists. split; [reflexivity|now constructor].
    + intros (out & E & OP). destruct (map_res (build_node pr _) ch) as [l| | |] eqn:MR; cbn [bind] in E; try discriminate. injection E as <-. inversion OP as [| |? ? l' ? K]; subst. apply map_res_ok in MR.
      assert (X : Forall2 (fun x y => build_node pr' (env_update e ch) x = Ok y) ch' l').
      { generalize dependent (env_update e ch). intros ee. clear S OP. revert l l' K IH. induction F as [|x x' ch ch' S F IHF]; intros l l' K IH MR; inversion MR as [|? y ? l0 E1 M0]; subst; inversion K as [|? y' ? l0' K1 K0]; subst; [constructor|].
        inversion IH as [|? ? I1 I2]; subst. constructor; [|now apply (IHF _ _ K0 I2)]. apply (I1 x' ee S). now exists y. }
      apply map_res_ok in X. now rewrite X.
Qed.
(** When a file cannot be optimised. *)
Lemma build_stopped pr pr' : pr_views (fun _ => True) pr pr' -> pr_meta pr' = pr_meta pr -> forall n n' e out, swap n n' -> build_node pr e n = Ok out ->
  (exists out', build_node pr' e n' = Ok out') \/
  exists name b p m src msg, inside (NFile name b p m src) out /\ is_png src /\ o b = inl msg /\ build_node pr' e n' = Err (E_Plugin (lit "png optimization error: " ++ msg)).
Proof.
  intros V M. induction n as [name b pc m src|name ch src IH] using node_ind2; intros n' e out S; inversion S as [? ? ? ? ? NP| ? ? ? ? P|? ? ch' ? F]; subst; cbn [build_node].
  - intros E. left. exists out. now apply (process_same pr pr').
  - rewrite !(process_png _ _ _ _ _ P). cbn [bind png_processor np_process po_name po_contents]. intros E; injection E as <-. destruct (o b) as [msg|b'] eqn:O; cbn [bind].
    + right. eexists _, b, _, _, src, msg. split; [apply in_here|]. now repeat split.
    + left. eexists. reflexivity.
  - rewrite (env_swap _ _ _ F). destruct (map_res (build_node pr _) ch) as [l| | |] eqn:MR; cbn [bind]; try discriminate. intros E; injection E as <-. apply map_res_ok in MR.
    assert (X : (exists l', map_res (build_node pr' (env_update e ch)) ch' = Ok l') \/ exists x name b p m src msg, In x l /\ inside (NFile name b p m src) x /\ is_png src /\ o b = inl msg /\ map_res (build_node pr' (env_update e ch)) ch' = Err (E_Plugin (lit "png optimization error: " ++ msg))).
    { generalize dependent (env_update e ch). intros ee. clear S. revert l IH. induction F as [|x x' ch ch' S F IHF]; intros l IH MR; inversion MR as [|? y ? l0 E1 M0]; subst; [left; now exists []|].
      inversion IH as [|? ? I1 I2]; subst. cbn [map_res]. destruct (I1 x' ee y S E1) as [(y' & ->)|(nm & b & p & m & s & msg & IN & P & O & ->)].
      - destruct (IHF _ I2 M0) as [(l' & ->)|(z & nm & b & p & m & s & msg & IL & IN & P & O & ->)]; cbn [bind].
        + left. eexists. reflexivity.
        + right. exists z, nm, b, p, m, s, msg. repeat split; auto. now right.
      - cbn [bind]. right. exists y, nm, b, p, m, s, msg. repeat split; auto. now left. }
    destruct X as [(l' & ->)|(x & nm & b & p & m & s & msg & IL & IN & P & O & ->)]; cbn [bind].
    + left. eexists. reflexivity.
    + right. exists nm, b, p, m, s, msg. repeat split; auto. apply in_child with (c := x); assumption.
Qed.

(** Whole builds. *)
Lemma builds_tree osenv mode d c ps out : builds h osenv mode d c ps out <->
  exists input input', node_new h ps true (sd_path d) (sd_name d) (sd_ent d) = Ok input /\ build_tree h (cf_meta c) (build_vars osenv mode) input = Ok (input', out).
Proof.
  unfold builds, build. cbn [stuart_new st_plugins st_config st_output]. destruct (node_new _ _ _ _ _ _) as [input| | |]; cbn [fst snd].
  2-4: split; [intros [E _]; discriminate|intros (? & ? & E & _); discriminate].
  destruct (preprocess (Processor h (Some input) (Some (base_frame (build_vars osenv mode))) (cf_meta c)) input) as [i'| | |] eqn:P; cbn [fst snd].
  2-4: split; [intros [E _]; discriminate|intros (x & ? & E & B); injection E as <-; unfold build_tree in B; rewrite P in B; discriminate].
  destruct (build_tree h (cf_meta c) (build_vars osenv mode) input) as [[x o']| | |] eqn:B; cbn [fst snd st_output].
  2-4: split; [intros [E _]; discriminate|intros (y & ? & E & B'); injection E as <-; rewrite B in B'; discriminate].
  split; [intros [_ E]; injection E as <-; now exists input, x|]. intros (y & y' & E & B'). injection E as <-. rewrite B in B'. injection B' as _ <-. now split.
Qed.
Lemma tree_steps meta vars input i' out : build_tree h meta vars input = Ok (i', out) <->
  preprocess (build_pr h meta vars input) input = Ok i' /\ exists ch, n_children i' = Some ch /\ build_node (build_pr h meta vars i') (env_update (Env vars None None) ch) i' = Ok out.
Proof.
  unfold build_tree. fold (build_pr h meta vars input). destruct (preprocess _ input) as [x| | |]; cbn [bind]. 2-4: split; [discriminate|intros [E _]; discriminate].
  destruct (n_children x) as [ch|] eqn:C. 2: { split; [discriminate|]. intros [E (ch & C' & _)]. injection E as <-. congruence. }
  fold (build_pr h meta vars x). destruct (build_node _ _ x) as [y| | |] eqn:B; cbn [bind].
  - split; [intros E; injection E as <- <-; split; [reflexivity|]; now exists ch|]. intros [E (ch' & C' & B')]. injection E as <-. rewrite C in C'. injection C' as <-. rewrite B in B'. injection B' as <-. reflexivity.
  - split; [discriminate|]. intros [E (ch' & C' & B')]. injection E as <-. rewrite C in C'. injection C' as <-. rewrite B in B'. discriminate.
  - split; [discriminate|]. intros [E (ch' & C' & B')]. injection E as <-. rewrite C in C'. injection C' as <-. rewrite B in B'. discriminate.
  - split; [discriminate|]. intros [E (ch' & C' & B')]. injection E as <-. rewrite C in C'. injection C' as <-. rewrite B in B'. discriminate.
Qed.
Lemma swap_children n n' : swap n n' -> match n_children n, n_children n' with Some ch, Some ch' => Forall2 swap ch ch' | None, None => True | _, _ => False end.
Proof. now destruct 1. Qed.
Lemma node_swap p name e : both swap (node_new h (ps1 ++ ps2) true p name e) (node_new h (ps1 ++ imgopt o :: ps2) true p name e).
Proof. unfold node_new. destruct e as [[b|l|]|]; try (split; discriminate). now apply create_swap. Qed.

Lemma png_exact osenv mode d c out' : builds h osenv mode d c (ps1 ++ imgopt o :: ps2) out' <->
  exists out, builds h osenv mode d c (ps1 ++ ps2) out /\ optimised o (cf_meta c) out out'.
Proof.
  rewrite builds_tree. split.
  - intros (i & i1 & N & B). apply tree_steps in B as [P (ch & C & B)]. destruct (proj2 (node_swap _ _ _) _ N) as (j & Nj & S). destruct (swap_pr h (cf_meta c) (build_vars osenv mode) _ _ S) as [V V'].
    destruct (proj2 (preprocess_swap _ _ V V' _ _ S) _ P) as (j1 & Pj & S1). pose proof (swap_children _ _ S1) as SC. rewrite C in SC. destruct (n_children j1) as [chj|] eqn:Cj; [|contradiction].
    rewrite (env_swap _ _ _ SC) in B. destruct (swap_pr h (cf_meta c) (build_vars osenv mode) _ _ S1) as [V1 V1'].
    apply (build_swap _ _ V1 V1' eq_refl _ _ _ S1) in B as (out & B & OP). exists out. split; [|exact OP]. apply builds_tree. exists j, j1. split; [exact Nj|]. apply tree_steps. split; [exact Pj|]. now exists chj.
  - intros (out & B & OP). apply builds_tree in B as (j & j1 & Nj & B). apply tree_steps in B as [Pj (chj & Cj & B)]. destruct (proj1 (node_swap _ _ _) _ Nj) as (i & N & S). destruct (swap_pr h (cf_meta c) (build_vars osenv mode) _ _ S) as [V V'].
    destruct (proj1 (preprocess_swap _ _ V V' _ _ S) _ Pj) as (i1 & P & S1). pose proof (swap_children _ _ S1) as SC. rewrite Cj in SC. destruct (n_children i1) as [ch|] eqn:C; [|contradiction].
    destruct (swap_pr h (cf_meta c) (build_vars osenv mode) _ _ S1) as [V1 V1'].
    exists i, i1. split; [exact N|]. apply tree_steps. split; [exact P|]. exists ch. split; [exact C|]. rewrite (env_swap _ _ _ SC). apply (build_swap _ _ V1 V1' eq_refl _ _ _ S1). exists out. split; [exact B|exact OP].
Qed.
Lemma png_stopped osenv mode d c out : builds h osenv mode d c (ps1 ++ ps2) out ->
  (exists out', builds h osenv mode d c (ps1 ++ imgopt o :: ps2) out') \/
  exists name b p m src msg, inside (NFile name b p m src) out /\ is_png src /\ o b = inl msg /\
    snd (build h osenv mode d (stuart_new c (ps1 ++ imgopt o :: ps2))) = Err (E_Plugin (lit "png optimization error: " ++ msg)).
Proof.
  intros B. apply builds_tree in B as (j & j1 & Nj & B). apply tree_steps in B as [Pj (chj & Cj & B)]. destruct (proj1 (node_swap _ _ _) _ Nj) as (i & N & S). destruct (swap_pr h (cf_meta c) (build_vars osenv mode) _ _ S) as [V V'].
  destruct (proj1 (preprocess_swap _ _ V V' _ _ S) _ Pj) as (i1 & P & S1). pose proof (swap_children _ _ S1) as SC. rewrite Cj in SC. destruct (n_children i1) as [ch|] eqn:C; [|contradiction].
  destruct (swap_pr h (cf_meta c) (build_vars osenv mode) _ _ S1) as [V1 V1']. rewrite <- (env_swap _ _ _ SC) in B.
  destruct (build_stopped _ _ V1 eq_refl _ _ _ _ S1 B) as [(out' & B')|(nm & b & p & m & s & msg & IN & PN & O & B')].
  - left. exists out'. apply builds_tree. exists i, i1. split; [exact N|]. apply tree_steps. split; [exact P|]. exists ch. now split.
  - right. exists nm, b, p, m, s, msg. repeat split; auto. unfold build. cbn [stuart_new st_plugins st_config st_output]. rewrite N.
    fold (build_pr h (cf_meta c) (build_vars osenv mode) i). rewrite P. unfold build_tree. fold (build_pr h (cf_meta c) (build_vars osenv mode) i). rewrite P. cbn [bind]. rewrite C.
    fold (build_pr h (cf_meta c) (build_vars osenv mode) i1). rewrite B'. reflexivity.
Qed.
End Png.

Lemma demo_does r : 
  (rf_pos r = [] /\ rf_named r = [] -> exists p, pp_parse demo_parser r = inr p /\ pf_name p = Some (lit "demo") /\
     forall l c f rest secs, pf_exec p l (Scope c (f :: rest) secs) =
       Ok (Scope c (Frame (fr_name f) (fr_vars f) (fr_out f ++ enc (lit "<p>This was written by the demo function!</p>")) :: rest) secs)) /\
  (rf_pos r <> [] \/ rf_named r <> [] -> pp_parse demo_parser r = inl PE_AssertionError).
Proof.
  destruct r as [n pos named]. cbn [rf_pos rf_named]. split.
  - intros [-> ->]. exists demo_fn. split; [reflexivity|]. split; [reflexivity|]. intros l c [fn fv fo] rest secs. reflexivity.
  - intros H. unfold demo_parser. cbn [pp_parse rf_pos rf_named]. destruct pos, named; try reflexivity. destruct H as [H|H]; now destruct H.
Qed.
Lemma demo_tag ps1 ps2 name : name = lit "demo" \/ name = lit "demo::demo" ->
  Forall (fun pf => ~ answers name (fst pf) (snd pf)) (flat_table (map (fun p => (pl_name p, pl_fns p)) ps1)) ->
  exists g, denotes (map (fun p => (pl_name p, pl_fns p)) (ps1 ++ demo :: ps2)) (GCall name [] []) (TFun (FPlugin g)) /\
    forall l c f rest secs, pf_exec g l (Scope c (f :: rest) secs) =
      Ok (Scope c (Frame (fr_name f) (fr_vars f) (fr_out f ++ enc (lit "<p>This was written by the demo function!</p>")) :: rest) secs).
Proof.
  intros N F. exists demo_fn. split; [|intros l c [fn fv fo] rest secs; reflexivity].
  apply de_plugin with (p := demo_parser); [destruct N as [-> | ->]; vm_compute; intuition discriminate| |reflexivity].
  exists (flat_table (map (fun p => (pl_name p, pl_fns p)) ps1)), (lit "demo"), (flat_table (map (fun p => (pl_name p, pl_fns p)) ps2)).
  split; [unfold flat_table; rewrite map_app, flat_map_app; reflexivity|]. split; [|exact F]. destruct N as [-> | ->]; [now left|now right].
Qed.
