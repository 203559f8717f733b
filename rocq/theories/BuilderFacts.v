(** BuilderFacts.v -- repeated builds (C45, C46) and metadata (C47). *)

From Coq Require Import String List NArith ZArith Bool Lia.
From Verif Require Import Text Utf8 Json Base Syntax Parse Tree Interp Build Disk SpecScope SpecPage SpecTree.
From Verif Require Import TextFacts InterpFacts TreeFacts.
Import ListNotations.

(** ** Histories *)
Lemma build_kept h osenv mode d st : st_config (fst (build h osenv mode d st)) = st_config st /\
  st_plugins (fst (build h osenv mode d st)) = st_plugins st /\
  (snd (build h osenv mode d st) <> Ok tt -> st_output (fst (build h osenv mode d st)) = st_output st).
Proof.
  unfold build. destruct (node_new _ _ _ _ _ _) as [i|x|q|]; cbn; try (now repeat split).
  destruct (preprocess _ i) as [i'|x|q|]; cbn; try (now repeat split).
  destruct (build_tree _ _ _ _) as [[a o]|x|q|]; cbn; try (now repeat split).
Qed.
Lemma merge_kept n st : st_config (fst (merge_output n st)) = st_config st /\ st_plugins (fst (merge_output n st)) = st_plugins st /\
  (st_output st = None -> fst (merge_output n st) = st).
Proof.
  unfold merge_output. destruct (st_output st) as [o|]; [|now repeat split]. destruct (merge o n). repeat split. discriminate.
Qed.
Lemma history_kept c ps b st : history c ps b st -> st_config st = c /\ st_plugins st = ps /\ (b = false -> st_output st = None).
Proof.
  induction 1 as [|b st h osenv mode d H [C [P _]] E|b st h osenv mode d H [C [P O]] E|b st n H [C [P O]]].
  - now repeat split.
  - destruct (build_kept h osenv mode d st) as (A & B & _). rewrite A, B. repeat split; try assumption. discriminate.
  - destruct (build_kept h osenv mode d st) as (A & B & K). rewrite A, B, (K E). now repeat split.
  - destruct (merge_kept n st) as (A & B & K). rewrite A, B. repeat split; try assumption. intros X. rewrite (K (O X)). now apply O.
Qed.
Lemma build_same h osenv mode d st st' : st_config st = st_config st' -> st_plugins st = st_plugins st' ->
  snd (build h osenv mode d st) = snd (build h osenv mode d st') /\
  (snd (build h osenv mode d st) = Ok tt -> fst (build h osenv mode d st) = fst (build h osenv mode d st')).
Proof.
  intros C P. unfold build. rewrite <- C, <- P. destruct (node_new _ _ _ _ _ _) as [i|x|q|]; cbn; try (now split).
  destruct (preprocess _ i) as [i'|x|q|]; cbn; try (now split). destruct (build_tree _ _ _ _) as [[a o]|x|q|]; cbn; now split.
Qed.
Lemma build_fresh c ps b st h osenv mode d : history c ps b st ->
  snd (build h osenv mode d st) = snd (build h osenv mode d (stuart_new c ps)) /\
  (snd (build h osenv mode d st) = Ok tt -> fst (build h osenv mode d st) = fst (build h osenv mode d (stuart_new c ps))).
Proof. intros H. apply history_kept in H. destruct H as (C & P & _). now apply build_same. Qed.
Lemma not_built c ps st : history c ps false st ->
  (forall n, merge_output n st = (st, Err E_NotBuilt)) /\
  (forall f p d, save f st p d = (d, Err E_NotBuilt)) /\
  (forall ser f p d, save_metadata ser f st p d = (d, Err (if cf_meta c then E_NotBuilt else E_MetadataNotEnabled))).
Proof.
  intros H. apply history_kept in H. destruct H as (C & P & O). specialize (O eq_refl). repeat split; intros.
  - unfold merge_output. now rewrite O.
  - unfold save. now rewrite O.
  - unfold save_metadata, metadata_value. rewrite O, C. now destruct (cf_meta c).
Qed.
Lemma built_has_output c ps st : history c ps true st -> st_output st <> None.
Proof.
  remember true as b eqn:B. induction 1 as [|b st h osenv mode d H _ E|b st h osenv mode d H IH E|b st n H IH]; try discriminate.
  - revert E. unfold build. destruct (node_new _ _ _ _ _ _) as [i|x|q|]; cbn; try discriminate.
    destruct (preprocess _ i) as [i'|x|q|]; cbn; try discriminate. destruct (build_tree _ _ _ _) as [[a o]|x|q|]; cbn; discriminate.
  - destruct (build_kept h osenv mode d st) as (_ & _ & K). rewrite (K E). now apply IH.
  - specialize (IH B). unfold merge_output. destruct (st_output st) as [o|]; [|contradiction]. destruct (merge o n). discriminate.
Qed.

(** ** Metadata *)
Lemma describe n : describable n -> exists v, metadata_recur false n = Ok v /\ described n v.
Proof.
  induction n as [name b p meta src|name ch src IH] using node_ind2; intros D; cbn [metadata_recur].
  - destruct (D _ _ _ _ _ (in_here _)) as [->|(k & v & ->)]; eexists; (split; [reflexivity|]); constructor.
  - assert (X : exists vs, map_res (metadata_recur false) ch = Ok vs /\ Forall2 described ch vs).
    { assert (DC : Forall describable ch).
      { apply Forall_forall. intros c Ic nm b p meta s I. apply (D nm b p meta s). now apply (in_child _ _ _ _ c). }
      clear D. induction ch as [|c ch IHc]; [exists []; split; [reflexivity|constructor]|]. inversion IH; inversion DC; subst.
      destruct (H1 H5) as (v & E & Dv). destruct (IHc H2 H6) as (vs & Es & Dvs). exists (v :: vs). cbn [map_res]. rewrite E. cbn [bind]. rewrite Es.
      split; [reflexivity|]. now constructor. }
    destruct X as (vs & -> & F). eexists. split; [reflexivity|]. now constructor.
Qed.
Lemma metadata_described st out : cf_meta (st_config st) = true -> st_output st = Some out -> is_dir out = true -> describable out ->
  exists ch vs, n_children out = Some ch /\ Forall2 described ch vs /\
    metadata_value st = Ok (VObj [(lit "name", VStr (cf_name (st_config st)));
      (lit "author", match cf_author (st_config st) with Some a => VStr a | None => VNull end); (lit "data", VArr vs)]).
Proof.
  intros M O ID D. destruct (describe _ D) as (v & E & Dv). unfold metadata_value. rewrite M, O. cbn [negb].
  destruct out as [|name ch src]; [discriminate|]. inversion Dv as [? ? ? vs F| |]; subst. exists ch, vs. split; [reflexivity|]. split; [exact F|].
  cbn [metadata_recur] in *. destruct (map_res _ ch) as [vs'|x|q|]; cbn [bind] in *; try discriminate. injection E as <-. reflexivity.
Qed.
Lemma build_records pr e n : pr_meta pr = true -> forall out, build_node pr e n = Ok out -> mirror (fun _ => records) [] n out.
Proof.
  intros M. assert (X : forall anc e out, build_node pr e n = Ok out -> mirror (fun _ => records) anc n out); [|eauto].
  induction n as [name b p meta src|name ch src IH] using node_ind2; intros anc e' out; cbn [build_node].
  - unfold process_file. match goal with |- bind ?x _ = _ -> _ => destruct x as [o|x'|q|] end; cbn [bind]; try discriminate.
    intros E; injection E as <-. constructor. cbn. rewrite M. destruct p; cbn; constructor.
  - destruct (map_res _ ch) as [ch'|x|q|] eqn:R; cbn [bind]; try discriminate. intros E; injection E as <-. constructor.
    apply map_res_ok in R. revert R. generalize (env_update e' ch), (ch :: anc). intros e2 anc2 R.
    induction R as [|c c' l l' H R IHR]; constructor; inversion IH; subst; eauto.
Qed.
Lemma tree_records h vars input i o : build_tree h true vars input = Ok (i, o) -> mirror (fun _ => records) [] i o.
Proof.
  unfold build_tree. destruct (preprocess _ input) as [i'|x|q|]; cbn [bind]; try discriminate.
  destruct (n_children i') as [ch|]; [|discriminate].
  match goal with |- bind ?x _ = _ -> _ => destruct x as [o'|x'|q|] eqn:B end; cbn [bind]; try discriminate.
  intros E; injection E as <- <-. eapply build_records; [|exact B]. reflexivity.
Qed.
(** Without plugins the tree can be described. *)
Lemma records_describable n : forall anc out, mirror (fun _ => records) anc n out ->
  (forall name b c meta src, inside (NFile name b (PCustom c) meta src) n -> exists k v, np_json c = VObj [(lit "type", k); (lit "value", v)]) ->
  describable out.
Proof.
  induction n as [name b p meta src|name ch src IH] using node_ind2; intros anc out M C; inversion M as [? ? ? ? ? ? ? R|? ? ? ? ch' F]; subst.
  - destruct out as [nm b' p' meta' s'|]; [|contradiction]. cbn in R. intros ? ? ? ? ? I. inversion I; subst.
    inversion R; subst; try (now left); right; try (now eexists _, _).
    destruct (C _ _ _ _ _ (in_here _)) as (k & v & ->). now eexists _, _.
  - intros nm b p meta s I. inversion I as [|? ? ? ? c' Ic Jc]; subst.
    assert (X : exists c, In c ch /\ mirror (fun _ => records) (ch :: anc) c c').
    { clear - F Ic. revert F Ic. generalize (ch :: anc). intros anc'. induction 1; [contradiction|]. intros [<-|J]; [eexists; split; [now left|eassumption]|].
      destruct (IHF J) as (c & ? & ?). exists c. split; [now right|assumption]. }
    destruct X as (c & I1 & M1). rewrite Forall_forall in IH. apply (IH c I1 _ _ M1) in Jc; [exact Jc|].
    intros nm' b' c0 meta' s' J. apply (C nm' b' c0 meta' s'). now apply (in_child _ _ _ _ c).
Qed.
