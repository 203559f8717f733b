(** ServeFacts.v -- lemmas for C82. *)

From Coq Require Import String List NArith ZArith Bool.
From Verif Require Import Text Utf8 Json Base Syntax Tree Build Disk Dev Serve SpecTree SpecDisk SpecProject SpecDev SpecServe DevFacts TextFacts TreeFacts ProgramFacts SaveFacts.
Import ListNotations.

Lemma no_slash ks : strip_prefix [c_slash] ([c_slash] ++ ks) = Some ks.
Proof. cbn. now destruct ks. Qed.
Lemma typed_ext mime name : typed mime name (match extension name with Some e => [(lit "Content-Type", mime e)] | None => [] end).
Proof.
  destruct (extension name) as [e|] eqn:X; [left; exists e; split; [now apply extension_spec|reflexivity]|]. right. split; [|reflexivity]. intros e H. apply extension_spec in H. congruence.
Qed.
Lemma last_under (p ks : path) : ks <> [] -> last (p ++ ks) [] = last ks [].
Proof. intros N. destruct ks as [|x ks _] using rev_ind; [now destruct N|]. now rewrite app_assoc, !last_last. Qed.
Lemma shown_inject js b : shown js b (inject js b).
Proof.
  unfold inject. pose proof (find_window_spec body_close b 0) as H. destruct (find_window _ 0 b) as [j|] eqn:W.
  - destruct H as (a & c & E & L & M). left. exists a, c. assert (F : first_occurrence (lit "</body>") a c b) by (split; [exact E|exact M]). split; [exact F|].
    rewrite <- (inject_first js a c b F). unfold inject. now rewrite W.
  - right. split; [|reflexivity]. exact H.
Qed.
Lemma serves_file mime js name b : serves mime js name b (Response 200 (match extension name with Some e => [(lit "Content-Type", mime e)] | None => [] end) (inject js b)).
Proof. eexists. eexists. split; [apply typed_ext|]. split; [apply shown_inject|reflexivity]. Qed.
Section Serving.
Variables (find : finder) (mime : text -> text) (js : bytes).
Hypothesis F : finds find.
Lemma serve_file dir ks d b : Forall url_name ks -> ks <> [] -> what (dir ++ ks) d = KFile b ->
  serves mime js (last ks []) b (serve_dir find mime js dir ([c_slash] ++ address ks) d).
Proof.
  intros U N W. unfold serve_dir. rewrite no_slash, (fi_file _ F dir ks d b U N W). unfold what in W. destruct (lookup (dir ++ ks) d) as [[b'|l|]|]; try discriminate. cbn in W. injection W as ->.
  rewrite (last_under dir ks N). apply serves_file.
Qed.
Lemma serve_index dir ks d b : Forall url_name ks -> what (dir ++ ks ++ [lit "index.html"]) d = KFile b ->
  serves mime js (lit "index.html") b (serve_dir find mime js dir ([c_slash] ++ dir_address ks) d).
Proof.
  intros U W. unfold serve_dir. rewrite no_slash, (fi_index _ F dir ks d b U W). unfold what in W. destruct (lookup (dir ++ ks ++ [lit "index.html"]) d) as [[b'|l|]|]; try discriminate. cbn in W. injection W as ->.
  rewrite app_assoc, last_last. apply serves_file.
Qed.
Lemma serve_redirect dir ks d : Forall url_name ks -> ks <> [] -> what (dir ++ ks) d = KDir ->
  serve_dir find mime js dir ([c_slash] ++ address ks) d = Response 301 [(lit "Location", [c_slash] ++ dir_address ks)] [].
Proof.
  intros U N W. unfold serve_dir. rewrite no_slash, (fi_dir _ F dir ks d U N W). destruct ks; [now destruct N|]. cbn [dir_address]. now rewrite app_assoc.
Qed.
Lemma serve_missing dir ks d : Forall url_name ks ->
  (ks <> [] -> what (dir ++ ks) d = KNone -> serve_dir find mime js dir ([c_slash] ++ address ks) d = Response 404 [] (lit "Not Found")) /\
  (what (dir ++ ks ++ [lit "index.html"]) d = KNone -> serve_dir find mime js dir ([c_slash] ++ dir_address ks) d = Response 404 [] (lit "Not Found")).
Proof.
  intros U. split; intros; unfold serve_dir; rewrite no_slash.
  - now rewrite (fi_none _ F dir ks d).
  - now rewrite (fi_no_index _ F dir ks d).
Qed.
Lemma serve_inside dir uri d hs body : serve_dir find mime js dir uri d = Response 200 hs body -> exists q b, above dir q /\ what q d = KFile b /\ serves mime js (last q []) b (Response 200 hs body).
Proof.
  unfold serve_dir. destruct (find dir _ d) as [[|p]|] eqn:E; try discriminate. unfold what. destruct (lookup p d) as [[b|l|]|] eqn:L; try discriminate. intros R. injection R as <- <-.
  exists p, b. split; [exact (fi_inside _ F _ _ _ _ E)|]. rewrite L. split; [reflexivity|]. apply serves_file.
Qed.
Lemma serve_site dir l d : exactly dir l d -> forall ks, Forall url_name ks ->
  (forall b, last_file l ks b -> ks <> [] -> serves mime js (last ks []) b (serve_dir find mime js dir ([c_slash] ++ address ks) d)) /\
  (forall b, last_file l (ks ++ [lit "index.html"]) b ->
     serves mime js (lit "index.html") b (serve_dir find mime js dir ([c_slash] ++ dir_address ks) d)) /\
  (In (ks, None) l -> (forall b, ~ In (ks, Some b) l) -> ks <> [] ->
     serve_dir find mime js dir ([c_slash] ++ address ks) d = Response 301 [(lit "Location", [c_slash] ++ dir_address ks)] []) /\
  (~ In ks (map fst l) -> ks <> [] -> serve_dir find mime js dir ([c_slash] ++ address ks) d = Response 404 [] (lit "Not Found")).
Proof.
  intros X ks U. split; [|split; [|split]].
  - intros b L N. apply serve_file; auto. now apply X.
  - intros b L. apply serve_index; auto. now apply X.
  - intros I NI N. apply serve_redirect; auto. apply X. right. now split.
  - intros NI N. apply serve_missing; auto. destruct (X ks) as (XF & XD & XO). destruct (what (dir ++ ks) d) eqn:W; try reflexivity; exfalso.
    + destruct (proj1 (XF _) eq_refl) as (l1 & l2 & -> & _). apply NI. rewrite map_app. apply in_or_app. right. now left.
    + destruct (proj1 XD eq_refl) as [->|[I _]]; [now destruct N|]. apply NI. now apply (in_map fst) in I.
    + now apply XO.
Qed.
End Serving.

(** The theorems hold of a site that was just saved. *)
Lemma serve_saved find mime js f st dir d d' out ch l : finds find -> st_output st = Some out -> n_children out = Some ch -> saves_all (st_config st) [] ch l ->
  ent_distinct d -> save f st dir d = (d', Ok tt) -> forall ks, Forall url_name ks ->
  (forall b, last_file l ks b -> ks <> [] -> serves mime js (last ks []) b (serve_dir find mime js dir ([c_slash] ++ address ks) d')) /\
  (forall b, last_file l (ks ++ [lit "index.html"]) b ->
     serves mime js (lit "index.html") b (serve_dir find mime js dir ([c_slash] ++ dir_address ks) d')) /\
  (In (ks, None) l -> (forall b, ~ In (ks, Some b) l) -> ks <> [] ->
     serve_dir find mime js dir ([c_slash] ++ address ks) d' = Response 301 [(lit "Location", [c_slash] ++ dir_address ks)] []) /\
  (~ In ks (map fst l) -> ks <> [] -> serve_dir find mime js dir ([c_slash] ++ address ks) d' = Response 404 [] (lit "Not Found")).
Proof. intros F O N S D W. apply (serve_site find mime js F dir l d'). exact (save_exactly f st dir d d' out ch l O N S D W). Qed.

(** ** A finder that keeps the promise *)
Definition index_of (dir ks : path) (d : ent) : option located :=
  match what (dir ++ ks ++ [lit "index.html"]) d with KNone => None | _ => Some (LocFile (dir ++ ks ++ [lit "index.html"])) end.
Definition simple_finder : finder := fun dir u d =>
  let ks := let (h, r) := split_char c_slash u in h :: r in
  match last ks [] with
  | [] => index_of dir (removelast ks) d
  | _ => match what (dir ++ ks) d with KDir => Some LocDir | KNone => None | _ => Some (LocFile (dir ++ ks)) end
  end.
Lemma split_address ks : Forall url_name ks -> ks <> [] -> (let (h, r) := split_char c_slash (address ks) in h :: r) = ks.
Proof.
  intros U N. destruct ks as [|h r]; [now destruct N|]. cbn [address]. inversion_clear U. rewrite joined_split; [reflexivity|now destruct H as [(? & ? & ? & ?) _]|]. eapply Forall_impl; [|exact H0]. intros k K. now destruct K as [(? & ? & ? & ?) _].
Qed.
Lemma joined_snoc c r : forall h, joined c h r ++ [c] = joined c h (r ++ [[]]).
Proof. induction r as [|k r IH]; intros h; cbn [joined app]; [reflexivity|]. rewrite <- IH. now rewrite <- app_assoc. Qed.
Lemma split_dir_address ks : Forall url_name ks -> (let (h, r) := split_char c_slash (dir_address ks) in h :: r) = ks ++ [[]].
Proof.
  intros U. destruct ks as [|h r]; [reflexivity|]. cbn [dir_address address]. rewrite joined_snoc. inversion_clear U. rewrite joined_split; [reflexivity|now destruct H as [(? & ? & ? & ?) _]|]. apply Forall_app. split; [|now repeat constructor].
  eapply Forall_impl; [|exact H0]. intros k K. now destruct K as [(? & ? & ? & ?) _].
Qed.
Lemma last_name ks : Forall url_name ks -> ks <> [] -> last ks [] <> [].
Proof.
  intros U N. destruct ks as [|k ks _] using rev_ind; [now destruct N|]. rewrite last_last. apply Forall_app in U as [_ U]. inversion_clear U. apply H.
Qed.
Lemma finds_simple : finds simple_finder.
Proof.
  constructor.
  - intros dir ks d b U N W. unfold simple_finder. rewrite split_address by assumption. pose proof (last_name ks U N). destruct (last ks []); [congruence|]. now rewrite W.
  - intros dir ks d U N W. unfold simple_finder. rewrite split_address by assumption. pose proof (last_name ks U N). destruct (last ks []); [congruence|]. now rewrite W.
  - intros dir ks d U N W. unfold simple_finder. rewrite split_address by assumption. pose proof (last_name ks U N). destruct (last ks []); [congruence|]. now rewrite W.
  - intros dir ks d b U W. unfold simple_finder. rewrite split_dir_address by assumption. rewrite last_last, removelast_last. unfold index_of. now rewrite W.
  - intros dir ks d U W. unfold simple_finder. rewrite split_dir_address by assumption. rewrite last_last, removelast_last. unfold index_of. now rewrite W.
  - intros dir u d p. unfold simple_finder. generalize (let (h, r) := split_char c_slash u in h :: r). intros ks. cbv zeta. destruct (last ks []).
    + unfold index_of. destruct (what _ d); intros E; try discriminate; injection E as <-; eexists; reflexivity.
    + destruct (what _ d); intros E; try discriminate; injection E as <-; eexists; reflexivity.
Qed.
