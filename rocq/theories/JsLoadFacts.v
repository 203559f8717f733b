(** JsLoadFacts.v -- lemmas on the loading of JavaScript plugins. *)

From Coq Require Import String List NArith ZArith Bool Lia.
From Verif Require Import Text Utf8 Json Base Syntax Tree Interp Disk Cli Load Js JsLoad SpecTree SpecDisk SpecProject SpecJsLoad TextFacts.
From Verif Require SpecChars Utf8Facts TreeFacts LoadFacts.
Import ListNotations.

Lemma member_spec l k v : prop l k v -> member k l = v.
Proof.
  intros (a & b & -> & N). induction a as [|[k' v'] a IH]; cbn [app member].
  - now rewrite text_eqb_refl.
  - cbn in N. destruct (text_eqb k' k) eqn:E; [apply text_eqb_eq in E; subst; exfalso; apply N; now left|]. apply IH. intros I. apply N. now right.
Qed.
Lemma member_none l k : ~ In k (map fst l) -> member k l = XUndef.
Proof.
  induction l as [|[k' v'] l IH]; cbn [member map fst]; intros N; [reflexivity|].
  destruct (text_eqb k' k) eqn:E; [apply text_eqb_eq in E; subst; exfalso; apply N; now left|]. apply IH. intros I. apply N. now right.
Qed.
Lemma get_object V e l k : object e l -> get V e k = read (member k l).
Proof. intros [->|[c ->]]; reflexivity. Qed.
Lemma get_prop V e l k v : object e l -> prop l k v -> v <> XThrow -> get V e k = Some v.
Proof. intros O P N. rewrite (get_object V e l k O), (member_spec l k v P). destruct v; try reflexivity. now destruct N. Qed.
Lemma object_some e l : object e l -> to_object e = Some e.
Proof. intros [->|[c ->]]; reflexivity. Qed.

(** The globals after the loop: the entries in reverse before those already there. *)
Definition globals_of (fs : list (text * js_code)) (g g' : globals) : Prop :=
  exists xs, g' = rev xs ++ g /\ Forall2 (fun x nc => fst x = lit "_stuart_" ++ fst nc /\ exists lf, snd x = XFun (snd nc) lf) xs fs.

Lemma load_entries V js fs : Forall2 entry js fs -> forall pre g, 
  exists g', load_fns V (XArr (pre ++ js)) (length js) (N.of_nat (length pre)) g = Ok (map fst fs, g') /\ globals_of fs g g'.
Proof.
  induction 1 as [|j [n c] js fs E F IH]; intros pre g.
  - exists g. split; [reflexivity|]. exists []. split; [reflexivity|constructor].
  - destruct E as (l & lf & O & PN & PF). cbn [fst snd] in PN, PF.
    destruct (IH (pre ++ [j]) ((lit "_stuart_" ++ n, XFun c lf) :: g)) as (g' & L & xs & G & FX).
    exists g'. split.
    + cbn [length load_fns]. unfold get_index. rewrite Nat2N.id, app_nth2, Nat.sub_diag by lia. cbn [nth].
      assert (R : read j = Some j) by (destruct O as [->|[c' ->]]; reflexivity). rewrite R. cbn [need bind].
      rewrite (object_some j l O). cbn [need bind]. rewrite (get_prop V j l _ _ O PN) by discriminate. cbn [need bind].
      rewrite (get_prop V j l _ _ O PF) by discriminate. cbn [need bind to_text].
      rewrite <- app_assoc in L. cbn [app] in L. rewrite app_length in L. cbn [length] in L.
      replace (N.of_nat (length pre) + 1)%N with (N.of_nat (length pre + 1)) by lia. rewrite L. reflexivity.
    + exists ((lit "_stuart_" ++ n, XFun c lf) :: xs). split; [rewrite G; cbn [rev]; now rewrite <- app_assoc|].
      constructor; [|exact FX]. split; [reflexivity|now exists lf].
Qed.

Lemma member_app_in k l1 l2 : In k (map fst l1) -> member k (l1 ++ l2) = member k l1.
Proof.
  induction l1 as [|[k' v'] l1 IH]; [intros []|]. cbn [app member map fst]. intros I. destruct (text_eqb k' k) eqn:E; [reflexivity|]. apply IH. destruct I as [<-|I]; [now rewrite text_eqb_refl in E|exact I].
Qed.
Lemma callee_last fs g n c : globals_of fs [] g -> last_of fs n c -> callee g n = Some c.
Proof.
  intros (xs & -> & F) (a & b & -> & N). apply Forall2_app_inv_r in F. destruct F as (xa & xb & FA & FB & ->). inversion FB as [|[k v] [n' c'] xb' b' [K [lf V]] FB' E1 E2]. subst.
  cbn [fst snd] in K, V. subst k v. unfold callee. rewrite app_nil_r, rev_app_distr. cbn [rev]. 
  assert (X : member (lit "_stuart_" ++ n) ((rev xb' ++ [(lit "_stuart_" ++ n, XFun c lf)]) ++ rev xa) = XFun c lf).
  { rewrite member_app_in by (rewrite map_app; apply in_or_app; right; now left).
    apply member_spec. exists (rev xb'), []. split; [reflexivity|]. intros I. apply N. rewrite map_rev, <- in_rev in I. clear -FB' I.
    induction FB' as [|x nc xs fs [K _] F IH]; [exact I|]. cbn [map In] in I |- *. destruct I as [I|I]; [left|right; now apply IH]. assert (X := eq_trans (eq_sym K) I). now apply app_inv_head in X. }
  now rewrite X.
Qed.
Lemma call_is g n c : callee g n = Some c -> provides (js_parser g n) (n, c).
Proof.
  intros C. split; [reflexivity|]. intros r. eexists. split; [reflexivity|]. split; [reflexivity|]. intros l s. cbn [pf_exec snd]. unfold js_call, js_exec. now rewrite C.
Qed.
Lemma last_exists_of (fs : list (text * js_code)) n : In n (map fst fs) -> exists c, last_of fs n c.
Proof.
  induction fs as [|[k c] fs IH]; [intros []|]. cbn [map fst]. intros I.
  destruct (in_dec (list_eq_dec N.eq_dec) n (map fst fs)) as [J|J].
  - destruct (IH J) as (c' & a & b & -> & N). exists c', ((k, c) :: a), b. now split.
  - destruct I as [->|I]; [|contradiction]. exists c, [], fs. now split.
Qed.

(** The plugin of a proper export: the last function of a name counts. *)
Lemma loads_last V e name version fs : describes e name version fs -> (N.of_nat (length fs) < 4294967296)%N ->
  exists pl, load_default V e = Ok (pl, version) /\ pl_name pl = name /\ pl_parsers pl = [] /\
    Forall2 (fun pp nc => pp_name pp = fst nc /\ forall c, last_of fs (fst nc) c -> provides pp (fst nc, c)) (pl_fns pl) fs.
Proof.
  intros (l & js & O & PN & PV & PF & F) B. destruct (load_entries V js fs F [] []) as (g & L & G). cbn [app length] in L.
  exists (Plugin name (map (js_parser g) (map fst fs)) []). split; [|split; [reflexivity|split; [reflexivity|]]].
  - unfold load_default. rewrite (object_some e l O). cbn [need bind]. rewrite (get_prop V e l _ _ O PN) by discriminate. cbn [need bind].
    rewrite (get_prop V e l _ _ O PV) by discriminate. cbn [need bind]. rewrite (get_prop V e l _ _ O PF) by discriminate. cbn [need bind to_object].
    assert (X : get V (XArr js) (lit "length") = Some (XNum (FFin (Z.of_nat (length js)) 0))) by reflexivity. rewrite X. cbn [need bind].
    assert (U : to_uint32 V (XNum (FFin (Z.of_nat (length js)) 0)) = Some (N.of_nat (length js))).
    { cbn [to_uint32]. f_equal. assert (LE : length js = length fs) by (clear -F; induction F; cbn [length]; congruence). unfold f64_trunc. cbn [Z.leb Z.compare Z.pow]. rewrite Z.mul_1_r, Z.mod_small by lia. lia. }
    rewrite U, Nat2N.id. change (N.of_nat 0) with 0%N in L. rewrite L. reflexivity.
  - assert (H : forall fs1, (forall x, In x fs1 -> In x fs) -> Forall2 (fun pp nc => pp_name pp = fst nc /\ forall c, last_of fs (fst nc) c -> provides pp (fst nc, c)) (map (js_parser g) (map fst fs1)) fs1).
    { intros fs1. induction fs1 as [|[n c] fs1 IH]; intros S; [constructor|]. cbn [map fst]. constructor; [|apply IH; intros x I; apply S; now right].
      split; [reflexivity|]. intros c' LA. cbn [fst] in *. apply call_is. exact (callee_last fs g n c' G LA). }
    apply H. auto.
Qed.
Lemma nodup_last (fs : list (text * js_code)) n c : NoDup (map fst fs) -> In (n, c) fs -> last_of fs n c.
Proof.
  intros D I. apply in_split in I. destruct I as (a & b & ->). exists a, b. split; [reflexivity|]. rewrite map_app in D. cbn [map fst] in D. apply NoDup_remove_2 in D. intros I. apply D. apply in_or_app. now right.
Qed.
Lemma loads V e name version fs : describes e name version fs -> (N.of_nat (length fs) < 4294967296)%N -> NoDup (map fst fs) ->
  exists pl, load_default V e = Ok (pl, version) /\ pl_name pl = name /\ pl_parsers pl = [] /\ Forall2 provides (pl_fns pl) fs.
Proof.
  intros D B ND. destruct (loads_last V e name version fs D B) as (pl & L & N & P & F). exists pl. split; [exact L|]. split; [exact N|]. split; [exact P|].
  assert (H : forall fs1 l1, (forall x, In x fs1 -> In x fs) -> Forall2 (fun pp nc => pp_name pp = fst nc /\ forall c, last_of fs (fst nc) c -> provides pp (fst nc, c)) l1 fs1 -> Forall2 provides l1 fs1).
  { intros fs1 l1 S F1. induction F1 as [|pp [n c] l1 fs1 [_ H] F1 IH]; [constructor|]. constructor; [|apply IH; intros x I; apply S; now right].
    apply (H c). cbn [fst]. apply nodup_last; [exact ND|]. apply S. now left. }
  apply (H fs (pl_fns pl)); [auto|exact F].
Qed.

(** Refusals. *)
Lemma refused_default V e : nothing e -> load_default V e = Err (lit "failed to get default export").
Proof. intros [->| ->]; reflexivity. Qed.
Lemma missing_none V e l k : object e l -> (exists v, prop l k v /\ nothing v) \/ ~ In k (map fst l) -> exists v, get V e k = Some v /\ to_object v = None.
Proof.
  intros O H. rewrite (get_object V e l k O). destruct H as [(v & P & [->| ->])|H].
  - rewrite (member_spec _ _ _ P). now exists XUndef.
  - rewrite (member_spec _ _ _ P). now exists XNull.
  - rewrite (member_none _ _ H). now exists XUndef.
Qed.
Lemma refused_functions V e l : object e l -> ~ In XThrow (map snd l) ->
  (exists v, prop l (lit "functions") v /\ nothing v) \/ ~ In (lit "functions") (map fst l) ->
  load_default V e = Err (lit "missing plugin functions").
Proof.
  intros O T H. unfold load_default. rewrite (object_some e l O). cbn [need bind].
  assert (G : forall k, exists v, get V e k = Some v).
  { intros k. rewrite (get_object V e l k O). clear H. induction l as [|[k' v'] l IH]; [now exists XUndef|]. cbn [member]. destruct (text_eqb k' k).
    - exists v'. destruct v'; try reflexivity. exfalso. apply T. now left.
    - assert (T' : ~ In XThrow (map snd l)) by (intros I; apply T; now right). clear IH O T. induction l as [|[k2 v2] l IH]; [now exists XUndef|]. cbn [member]. destruct (text_eqb k2 k).
      + exists v2. destruct v2; try reflexivity. exfalso. apply T'. now left.
      + apply IH. intros I. apply T'. now right. }
  destruct (G (lit "name")) as [n ->]. cbn [need bind]. destruct (G (lit "version")) as [v ->]. cbn [need bind].
  destruct (missing_none V e l (lit "functions") O H) as (w & -> & E). cbn [need bind]. now rewrite E.
Qed.
Lemma load_fns_err V js : forall k i g j, nth_error js (N.to_nat i + j) = Some k -> nothing k ->
  forall n, j < n -> (forall x, In x js -> x <> XThrow) -> forall r, load_fns V (XArr js) n i g <> Ok r.
Proof.
  intros k i g j. revert k i g. induction j as [|j IH]; intros k i g E N [|n] B T r; try lia.
  - cbn [load_fns]. unfold get_index. rewrite Nat.add_0_r in E. rewrite (nth_error_nth js _ XUndef E). destruct N as [->| ->]; discriminate.
  - cbn [load_fns]. unfold get_index. destruct (read _) as [v|]; [|discriminate]. cbn [need bind]. destruct (to_object v) as [o|]; [|discriminate]. cbn [need bind].
    destruct (get V o (lit "name")) as [x|]; [|discriminate]. cbn [need bind]. destruct (get V o (lit "fn")) as [f|]; [|discriminate]. cbn [need bind].
    destruct (load_fns _ _ n _ _) as [r'| | |] eqn:L; try discriminate. exfalso. apply (IH k (i + 1)%N ((lit "_stuart_" ++ to_text V x, f) :: g)) with (n := n) (r := r'); try assumption; [|lia].
    replace (N.to_nat (i + 1) + j) with (N.to_nat i + S j) by lia. exact E.
Qed.
Lemma load_fns_count V fs : forall n i g r, load_fns V fs n i g = Ok r -> length (fst r) = n.
Proof.
  induction n as [|n IH]; intros i g r; cbn [load_fns]; [intros E; now injection E as <-|].
  destruct (get_index V fs i) as [v|]; [|discriminate]. cbn [need bind]. destruct (to_object v) as [o|]; [|discriminate]. cbn [need bind].
  destruct (get V o (lit "name")) as [x|]; [|discriminate]. cbn [need bind]. destruct (get V o (lit "fn")) as [f|]; [|discriminate]. cbn [need bind].
  destruct (load_fns V fs n _ _) as [r'| | |] eqn:L; try discriminate. cbn [bind]. intros E. injection E as <-. cbn [fst length]. f_equal. exact (IH _ _ _ L).
Qed.
Lemma loaded_counts V e l js pl v : object e l -> prop l (lit "functions") (XArr js) -> (N.of_nat (length js) < 4294967296)%N -> (forall x, In x js -> x <> XThrow) ->
  load_default V e = Ok (pl, v) -> length (pl_fns pl) = length js /\ pl_parsers pl = [] /\ forall x, In x js -> ~ nothing x.
Proof.
  intros O P B T. unfold load_default. rewrite (object_some e l O). cbn [need bind]. destruct (get V e (lit "name")) as [n|]; [|discriminate]. cbn [need bind].
  destruct (get V e (lit "version")) as [v'|]; [|discriminate]. cbn [need bind]. rewrite (get_prop V e l _ _ O P) by discriminate. cbn [need bind to_object].
  assert (X : get V (XArr js) (lit "length") = Some (XNum (FFin (Z.of_nat (length js)) 0))) by reflexivity. rewrite X. cbn [need bind].
  assert (U : to_uint32 V (XNum (FFin (Z.of_nat (length js)) 0)) = Some (N.of_nat (length js))).
  { cbn [to_uint32]. f_equal. unfold f64_trunc. cbn [Z.leb Z.compare Z.pow]. rewrite Z.mul_1_r, Z.mod_small by lia. lia. }
  rewrite U, Nat2N.id. destruct (load_fns V (XArr js) (length js) 0 []) as [r| | |] eqn:L; try discriminate. cbn [bind]. intros E. injection E as <- <-. cbn [pl_fns pl_parsers].
  split; [rewrite map_length; exact (load_fns_count V _ _ _ _ _ L)|]. split; [reflexivity|]. intros x I NX. apply In_nth_error in I. destruct I as [j I].
  apply (load_fns_err V js x 0 [] j I NX (length js)) with (r := r); [|exact T|exact L]. apply nth_error_Some. now rewrite I.
Qed.

(** The whole way from a dependency of the project. *)
Lemma from_file V io p b src e d : what p d = KFile b -> SpecChars.utf8_text b src -> v8_module V p src = MDefault e ->
  load_js_plugin V io p d = load_default V e.
Proof.
  intros W U M. unfold load_js_plugin. unfold what in W. destruct (lookup p d) as [[b0|l|]|]; try discriminate. cbn in W. injection W as ->.
  apply Utf8Facts.decoding in U. now rewrite U, M.
Qed.
Lemma file_needed V io p d pl : load_js_plugin V io p d = Ok pl ->
  exists b src e, what p d = KFile b /\ SpecChars.utf8_text b src /\ v8_module V p src = MDefault e /\ ~ nothing e.
Proof.
  unfold load_js_plugin, what. destruct (lookup p d) as [[b|l|]|]; try discriminate. destruct (from_utf8 b) as [src|] eqn:U; [|discriminate].
  destruct (v8_module V p src) as [| | |e] eqn:M; try discriminate. intros E. exists b, src, e. split; [reflexivity|]. split; [now apply Utf8Facts.decoding|]. split; [exact M|].
  intros N. rewrite (refused_default V e N) in E. discriminate.
Qed.
Lemma from_dependency L V io fs root name src p b d pl v : meant root src p -> what p d = KFile b ->
  has_ext (last p []) (lit "js") \/ has_ext (last p []) (lit "mjs") -> lo_js L = true -> lo_script L = load_js V io ->
  load_js_plugin V io p d = Ok (pl, v) -> load_from_source L fs root name src d = (d, LOk [pl]).
Proof.
  intros M W X J S E. apply LoadFacts.meant_join in M. unfold load_from_source. rewrite M. unfold what in W. destruct (lookup p d) as [[b0|l|]|] eqn:LK; try discriminate.
  unfold load_path. destruct X as [X|X]; apply TreeFacts.extension_spec in X; rewrite X; rewrite text_eqb_refl, ?orb_true_r; cbn [orb]; rewrite J, S; unfold load_js; now rewrite E.
Qed.
