(** MetaFacts.v -- the metadata file and the files of the project (C93). *)

From Coq Require Import String List NArith Bool Lia.
From Verif Require Import Text Utf8 Json Base Syntax Parse Tree Interp Build Disk Cli.
From Verif Require Import SpecScope SpecChars SpecTree SpecMarkdown SpecUtf8 SpecDisk SpecProject SpecSite SpecMeta.
From Verif Require Import TextFacts Utf8Facts TreeFacts ProjectFacts PathFacts MergeFacts BuilderFacts CliFacts ProgramFacts OrderFacts SiteFacts SiteDisk.
Import ListNotations.

Lemma described_called n v : described n v -> forall k, called v k <-> n_name n = k.
Proof.
  intros D k. split.
  - intros (l & -> & I). inversion D; subst; cbn [n_name] in *.
    + destruct I as [I|[I|[I|[]]]]; try discriminate I. now injection I.
    + destruct I as [I|[I|[]]]; try discriminate I. now injection I.
    + destruct I as [I|[I|[I|[]]]]; try discriminate I. now injection I.
  - intros <-. inversion D; subst; eexists; (split; [reflexivity|]); cbn [n_name]; [right; now left|now left|now left].
Qed.
Lemma listed_nodes vs ks v : listed_at vs ks v -> forall ch, Forall2 described ch vs -> exists c ks' n, In c ch /\ ks = n_name c :: ks' /\ at_names c ks' n /\ described n v.
Proof.
  induction 1 as [vs v k I C|vs k vs' ks v I L IH]; intros ch F.
  - destruct (Forall2_in_r _ _ _ _ F I) as (c & Ic & D). exists c, [], c. split; [exact Ic|]. apply (described_called _ _ D) in C. subst k. split; [reflexivity|]. split; [constructor|exact D].
  - destruct (Forall2_in_r _ _ _ _ F I) as (c & Ic & D). unfold dir_entry in D. inversion D as [nm ch' src vs2 F'| |]; subst.
    destruct (IH _ F') as (c' & ks' & n & I' & -> & A & D'). exists (NDir k ch' src), (n_name c' :: ks'), n. split; [exact Ic|]. split; [reflexivity|]. split; [now constructor|exact D'].
Qed.
Lemma nodes_listed c ks n : at_names c ks n -> forall ch vs, In c ch -> Forall2 described ch vs -> exists v, described n v /\ listed_at vs (n_name c :: ks) v.
Proof.
  induction 1 as [n|name ch' src c ks n I A IH]; intros ch vs Ic F.
  - destruct (Forall2_in_l _ _ _ _ F Ic) as (v & Iv & D). exists v. split; [exact D|]. constructor; [exact Iv|]. now apply (described_called _ _ D).
  - destruct (Forall2_in_l _ _ _ _ F Ic) as (v & Iv & D). inversion D as [? ? ? vs' F'| |]; subst. destruct (IH _ _ I F') as (x & Dx & L). exists x. split; [exact Dx|].
    cbn [n_name]. apply (la_in vs name vs'); [exact Iv|exact L].
Qed.

(** ** Entries of the content directory *)
Inductive stated (h : host) : text -> ent -> node -> Prop :=
| st_dir name l ch src : Forall2 (fun e => stated h (fst e) (snd e)) l ch -> stated h name (EDir l) (NDir name ch src)
| st_file name b k o pc m s v : file_says h name b k v -> described (NFile k o pc m s) v -> stated h name (EFile b) (NFile k o pc m s).
Lemma node_stated h ps pr pr1 e : flat_map pl_parsers ps = [] -> pr_meta pr1 = true ->
  forall name n env out, stands (ready_as h ps pr) name e n -> build_node pr1 env n = Ok out -> stated h name e out.
Proof.
  intros NP PM. induction e as [b| |l IH] using ent_ind2; intros name n env out S B; inversion S as [? ? ? R N F|? ? ch src F]; subst.
  - destruct R as (n0 & (p & C) & Pre). destruct (create_file_kind _ _ _ _ _ _ C) as (pc & -> & K).
    assert (PF : forall pc', n = NFile (n_name n) b pc' None p -> process_file pr1 env (n_name n) b pc' p = Ok out).
    { intros pc' E. rewrite E in B. exact B. }
    assert (OUT : forall pc' o k, (if is_template_name (n_name n) then Ok (POut None None)
     else
       match pc' with
       | PHtml toks => map_err E_Process (process_html pr1 env p toks)
       | PMarkdown m => map_err E_Process (process_markdown pr1 env p (n_name n) m)
       | PCustom c => match np_process c env with inr o => Ok o | inl err => Err (E_Plugin err) end
       | _ => Ok (POut None None)
       end) = Ok o -> process_file pr1 env (n_name n) b pc' p = Ok out -> match po_name o with Some n => n | None => n_name n end = k ->
       exists bs, out = NFile k bs PNone (parsed_to_json pc') p).
    { intros pc' o k E Q Ek. unfold process_file in Q. rewrite E in Q. cbn [bind] in Q. rewrite PM, Ek in Q. injection Q as <-. now eexists. }
    assert (NT : forall x, has_ext (n_name n) x -> x <> lit "html" -> is_template_name (n_name n) = false).
    { intros x X NX. destruct (is_template_name (n_name n)) eqn:T; [|reflexivity]. exfalso. apply NX. unfold is_template_name in T. apply orb_true_iff in T.
      destruct T as [T|T]; apply text_eqb_eq in T; rewrite T in X; eapply has_ext_unique; [exact X|exact root_ext|exact X|exact md_ext]. }
    destruct K as [(X & t & ->)|[(X & m & -> & _)|[(X & v & ->)|[(e' & np & cc & _ & _ & _ & _ & K & _)|(-> & K)]]]].
    + cbn [preprocess] in Pre. injection Pre as Pre. pose proof (PF _ (eq_sym Pre)) as Q.
      destruct (if is_template_name (n_name n) then Ok (POut None None) else map_err E_Process (process_html pr1 env p t)) as [o| | |] eqn:E.
      * assert (PN : match po_name o with Some n => n | None => n_name n end = n_name n).
        { destruct (is_template_name _); [injection E as <-; reflexivity|]. unfold process_html in E. destruct (ok_or _ _) as [r| | |]; cbn [bind map_err] in E; try discriminate.
          destruct (pr_base pr1); [|discriminate]. destruct (two_phases _ _ _ _ _ _); cbn [bind map_err] in E; try discriminate. injection E as <-. reflexivity. }
        destruct (OUT (PHtml t) o _ E Q PN) as (bs & ->). cbn [parsed_to_json]. econstructor; [apply fs_other|constructor].
        -- intros Y. discriminate (has_ext_unique _ _ _ X Y).
        -- intros Y. discriminate (has_ext_unique _ _ _ X Y).
      * exfalso. unfold process_file in Q. rewrite E in Q. discriminate Q.
      * exfalso. unfold process_file in Q. rewrite E in Q. discriminate Q.
      * exfalso. unfold process_file in Q. rewrite E in Q. discriminate Q.
    + cbn [preprocess] in Pre. destruct (preprocess_markdown pr p m) as [m'| | |] eqn:PMk; try discriminate. cbn [bind] in Pre. injection Pre as Pre. pose proof (PF _ (eq_sym Pre)) as Q.
      assert (FM : md_front m' = md_front m).
      { unfold preprocess_markdown in PMk. destruct (pr_base pr); [|discriminate]. destruct (phase _ _ _ _) as [s0| | |]; cbn [bind] in PMk; try discriminate.
        repeat match type of PMk with (match ?x with _ => _ end) = _ => destruct x; try discriminate | bind ?x _ = _ => destruct x; cbn [bind] in PMk; try discriminate end. injection PMk as <-. reflexivity. }
      assert (U : exists t, utf8_text b t /\ exists body, md_parts t (md_front m) body).
      { unfold create_from_file in C. rewrite (ext_of _ _ X) in C.
        change (text_eqb (lit "md") (lit "html")) with false in C. change (text_eqb (lit "md") (lit "md")) with true in C. cbv iota in C.
        destruct (from_utf8 b) as [t|] eqn:UT; cbn [ok_or bind] in C; [|discriminate]. exists t. split; [now apply decoding|].
        destruct (parse_markdown _ _ _ t) as [m0| | |] eqn:PMd; cbn [map_err bind] in C; try discriminate. injection C as <-. now apply (parsed_parts _ _ _ _ _ PMd). }
      destruct U as (t & U & body & MP).
      rewrite (NT _ X ltac:(discriminate)) in OUT.
      destruct (map_err E_Process (process_markdown pr1 env p (n_name n) m')) as [o| | |] eqn:E.
      2-4: exfalso; unfold process_file in Q; rewrite (NT _ X ltac:(discriminate)), E in Q; discriminate Q.
      destruct X as (stem & Xn & NE & _).
      assert (PN : match po_name o with Some n => n | None => n_name n end = stem ++ lit ".html").
      { destruct (process_markdown _ _ _ _ _) as [o'| | |] eqn:E'; cbn [map_err] in E; try discriminate. injection E as ->.
        unfold process_markdown in E'. destruct (ok_or (ev_root env) _); cbn [bind] in E'; try discriminate. destruct (ok_or (ev_md env) _); cbn [bind] in E'; try discriminate.
        destruct (pr_base pr1); [|discriminate]. destruct (md_to_value m'); cbn [bind] in E'; try discriminate. destruct (two_phases _ _ _ _ _ _); cbn [bind] in E'; try discriminate.
        destruct (strip_suffix (lit ".md") (n_name n)) as [stem'|] eqn:SS; [|discriminate]. injection E' as <-. cbn [po_name].
        apply strip_suffix_spec in SS. rewrite Xn in SS. apply app_inv_tail in SS. now subst. }
      destruct (OUT (PMarkdown m') o _ E Q PN) as (bs & ->). cbn [parsed_to_json]. rewrite Xn, FM. econstructor; [now apply (fs_md h stem b t (md_front m) body)|]. constructor.
    + cbn [preprocess] in Pre. injection Pre as Pre. pose proof (PF _ (eq_sym Pre)) as Q. rewrite (NT _ X ltac:(discriminate)) in OUT.
      destruct (OUT (PJson v) _ _ eq_refl Q eq_refl) as (bs & ->). cbn [parsed_to_json].
      unfold create_from_file in C. rewrite (ext_of _ _ X) in C.
      change (text_eqb (lit "json") (lit "html")) with false in C. change (text_eqb (lit "json") (lit "md")) with false in C. change (text_eqb (lit "json") (lit "json")) with true in C. cbv iota in C.
      destruct (from_utf8 b) as [t|] eqn:UT; cbn [ok_or bind] in C; [|discriminate]. destruct (h_json h t) as [j|] eqn:J; cbn [ok_or bind] in C; [|discriminate]. injection C as <-.
      econstructor; [apply (fs_json h _ b t j X); [now apply decoding|exact J]|constructor].
    + rewrite NP in K. destruct K.
    + cbn [preprocess] in Pre. injection Pre as Pre. pose proof (PF _ (eq_sym Pre)) as Q.
      destruct (OUT PNone (POut None None) _ ltac:(now destruct (is_template_name _)) Q eq_refl) as (bs & ->). cbn [parsed_to_json].
      econstructor; [apply fs_other|constructor]; intros Y; destruct (K _ Y) as (K1 & K2 & K3 & _); congruence.
  - cbn [build_node] in B. destruct (map_res _ ch) as [ch'| | |] eqn:M; try discriminate. cbn [bind] in B. injection B as <-. constructor. apply map_res_ok in M. clear S.
    revert ch' M. generalize (env_update env ch). intros env'. induction F as [|[k e] c l ch S F IHF]; intros ch' M; inversion M as [|? c' ? ch'' Ec M2]; subst; [constructor|].
    inversion IH as [|? ? I1 I2]; subst. constructor; [exact (I1 _ _ _ _ S Ec)|now apply IHF].
Qed.

(** ** Places *)
Lemma stated_name h name l n : stated h name (EDir l) n -> n_name n = name.
Proof. now inversion 1. Qed.
Lemma stated_only h e : forall name n, stated h name e n -> forall ks x, at_names n ks x ->
  match x with
  | NDir _ _ _ => exists l, ent_at e ks (EDir l)
  | NFile k _ _ _ _ => exists nm b v, file_says h nm b k v /\ described x v /\ (forall l, e = EDir l -> exists ks0, ks = ks0 ++ [k] /\ ent_at e (ks0 ++ [nm]) (EFile b)) /\ (ks = [] -> nm = name /\ e = EFile b)
  end.
Proof.
  induction e as [b| |l IH] using ent_ind2; intros name n S ks x A; inversion S as [? ? ch src F|? ? k o pc m s v FS D]; subst.
  - inversion A; subst. exists name, b, v. split; [exact FS|]. split; [exact D|]. split; [discriminate|now intros].
  - inversion A as [|? ? ? c ks' ? Ic A']; subst; [exists l; constructor|].
    destruct (Forall2_in_r _ _ _ _ F Ic) as ([k e] & Ik & Sk). cbn [fst snd] in Sk. rewrite Forall_forall in IH. pose proof (IH _ Ik _ _ Sk _ _ A') as X. cbn [snd] in X.
    destruct x as [kx bx px mx sx|nx chx sx].
    + destruct X as (nm & b & v & FS & D & P & Q). exists nm, b, v. split; [exact FS|]. split; [exact D|]. split; [|discriminate]. intros l' E. injection E as <-.
      destruct e as [b'|l'|]; [|destruct (P _ eq_refl) as (ks0 & -> & E)|inversion Sk].
      * inversion Sk as [|? ? ? ? ? ? ? ? FS' D']; subst. inversion A'; subst. destruct (Q eq_refl) as [-> E]. injection E as ->. exists []. split; [reflexivity|]. cbn [app]. econstructor; [exact Ik|constructor].
      * exists (k :: ks0). rewrite (stated_name _ _ _ _ Sk). split; [reflexivity|]. cbn [app]. econstructor; eassumption.
    + destruct X as [l' E]. exists l'. destruct e as [b'|l0|]; [inversion E|rewrite (stated_name _ _ _ _ Sk); econstructor; eassumption|inversion Sk].
Qed.
Lemma stated_dirs h e : forall name n, stated h name e n -> forall ks l, ent_at e ks (EDir l) -> exists nm ch src, at_names n ks (NDir nm ch src).
Proof.
  induction e as [b| |l0 IH] using ent_ind2; intros name n S ks l A; inversion A as [|? k e ks' ? Ik A']; subst; inversion S as [? ? ch src F|]; subst; [eexists _, _, _; constructor|].
  destruct (Forall2_in_l _ _ _ _ F Ik) as (c & Ic & Sc). cbn [fst snd] in Sc. rewrite Forall_forall in IH. destruct (IH _ Ik _ _ Sc _ _ A') as (nm & ch' & src' & P). exists nm, ch', src'.
  destruct e as [b'|l'|]; [inversion A'|rewrite <- (stated_name _ _ _ _ Sc); econstructor; eassumption|inversion Sc].
Qed.
Lemma stated_files h e : forall name n, stated h name e n -> forall ks nm b, ent_at e (ks ++ [nm]) (EFile b) ->
  exists k o pc m s v, at_names n (ks ++ [k]) (NFile k o pc m s) /\ described (NFile k o pc m s) v /\ file_says h nm b k v.
Proof.
  induction e as [b| |l0 IH] using ent_ind2; intros name n S ks nm b0 A.
  - exfalso. destruct ks; inversion A.
  - inversion S.
  - inversion S as [? ? ch src F|]; subst. rewrite Forall_forall in IH. destruct ks as [|k ks]; cbn [app] in A; inversion A as [|? ? e ks' ? Ik A']; subst;
      destruct (Forall2_in_l _ _ _ _ F Ik) as (c & Ic & Sc); cbn [fst snd] in Sc.
    + inversion A'; subst. inversion Sc as [|? ? k o pc m s v FS D]; subst. exists k, o, pc, m, s, v. split; [|now split]. cbn [app]. change k with (n_name (NFile k o pc m s)) at 1. econstructor; [exact Ic|constructor].
    + destruct (IH _ Ik _ _ Sc _ _ _ A') as (k' & o & pc & m & s & v & P & D & FS). exists k', o, pc, m, s, v. split; [|now split].
      destruct e as [b'|l'|]; [destruct ks; inversion A'|cbn [app]; rewrite <- (stated_name _ _ _ _ Sc); econstructor; eassumption|inversion Sc].
Qed.
Lemma built_stated h osenv mode d st content out : flat_map pl_parsers (st_plugins st) = [] -> cf_meta (st_config st) = true ->
  snd (build h osenv mode d st) = Ok tt -> st_output (fst (build h osenv mode d st)) = Some out -> sd_ent d = Some content -> stated h (sd_name d) content out.
Proof.
  intros NP CM B O E. destruct (build_parts _ _ _ _ _ _ _ B O E) as (l & input & nm & ch & src & ch' & -> & S & P & M & ->).
  pose proof (preprocess_stands _ _ _ _ _ _ _ S P) as S'. inversion S' as [|? ? ? ? F]; subst. constructor. apply map_res_ok in M. rewrite CM in *. clear B O S' S P E.
  revert ch' M. match goal with |- context [Forall2 (fun x y => build_node ?p ?ev x = Ok y)] => set (pr1 := p); set (env1 := ev) end.
  assert (PM : pr_meta pr1 = true) by reflexivity. clearbody pr1 env1. clear - F PM NP.
  induction F as [|[k e] c l ch Sc F IH]; intros ch' M; inversion M as [|? c' ? ch'' Ec M2]; subst; [constructor|]. constructor; [exact (node_stated _ _ _ _ _ NP PM _ _ _ _ Sc Ec)|now apply IH].
Qed.
Lemma static_dirs h e : forall p name n, create_from h [] false p name e = Ok n -> forall ks l, ent_at e ks (EDir l) -> exists nm ch src, at_names n ks (NDir nm ch src).
Proof.
  induction e as [b0| |l0 IH] using ent_ind2; intros p name n C ks l A; [inversion A|discriminate|].
  cbn [create_from] in C. destruct (map_res _ l0) as [ch| | |] eqn:M; try discriminate. cbn [bind] in C. injection C as <-. apply map_res_ok in M.
  inversion A as [|? k e ks' ? Ik A']; subst; [eexists _, _, _; constructor|]. destruct (Forall2_in_l _ _ _ _ M Ik) as (y & Iy & Cy). cbn [fst snd] in Cy. rewrite Forall_forall in IH.
  destruct (IH _ Ik _ _ _ Cy ks' l A') as (nm & ch' & src & H). exists nm, ch', src.
  assert (N : n_name y = k) by (apply create_loaded in Cy; now apply loaded_name in Cy). rewrite <- N. now apply an_child.
Qed.
Lemma merge_dirs_only h dir d names : forall st st' out0 out, st_output st = Some out0 -> merge_dirs h dir names d st = (st', Ok tt) -> st_output st' = Some out ->
  forall p x, at_names out p x -> exists y, same_node x y /\
    (at_names out0 p y \/ exists n e t, In n names /\ lookup (dir ++ [n]) d = Some e /\ create_from h [] false (dir ++ [n]) n e = Ok t /\ at_names t p y).
Proof.
  induction names as [|n names IH]; intros st st' out0 out O M O' p x A; cbn [merge_dirs] in M.
  - injection M as <-. assert (out = out0) by congruence. subst. exists x. split; [apply same_node_refl|now left].
  - destruct (lookup (dir ++ [n]) d) as [e|] eqn:L.
    + unfold node_new in M. destruct e as [|l|]; try discriminate. destruct (create_from h [] false (dir ++ [n]) n (EDir l)) as [t| | |] eqn:C; try discriminate.
      unfold merge_output in M. rewrite O in M. destruct (merge out0 t) as [out1 o] eqn:MG. destruct o; try discriminate.
      destruct (IH (Stuart (st_input st) (Some out1) (st_config st) (st_base st) (st_plugins st)) _ _ _ eq_refl M O' p x A) as (y & SN & [A1|(n' & e' & t' & I & L' & C' & A')]).
      * destruct (proj1 (merge_any_union _ _ _ MG) p y A1) as (z & [Az|Az] & SZ); exists z; (split; [now apply (same_node_trans _ y)|]); [now left|]. right. exists n, (EDir l), t. repeat split; try assumption. now left.
      * exists y. split; [exact SN|]. right. exists n', e', t'. repeat split; try assumption. now right.
    + destruct (IH _ _ _ _ O M O' p x A) as (y & SN & [A1|(n' & e' & t' & I & L' & C' & A')]); exists y; (split; [exact SN|]); [now left|]. right. exists n', e', t'. repeat split; try assumption. now right.
Qed.
Lemma metadata_tells m f c d c' d' : cli_build m f c d = (c', d', COk) -> cf_meta (st_config (cx_stuart c)) = true -> flat_map pl_parsers (st_plugins (cx_stuart c)) = [] ->
  exists d1 d4 content others vs, ran (m_script m) (cx_pre c) d d1 /\ ran (m_script m) (cx_post c) d4 d' /\
    lookup (cx_dir c ++ [lit "content"]) d1 = Some content /\
    (forall e, In e others <-> lookup (cx_dir c ++ [lit "static"]) d1 = Some e \/ lookup (cx_dir c ++ [lit "temp"]) d1 = Some e) /\
    tells (m_host m) content others vs /\
    what (cx_dir c ++ [lit "metadata.json"]) d4 = KFile (m_ser m (VObj
      [(lit "name", VStr (cf_name (st_config (cx_stuart c))));
       (lit "author", match cf_author (st_config (cx_stuart c)) with Some a => VStr a | None => VNull end); (lit "data", VArr vs)])).
Proof.
  intros B CM NP. assert (exists d1 st d3 d4, ran (m_script m) (cx_pre c) d d1 /\ build_and_merge m c d1 = (st, Ok tt) /\
    save_metadata (m_ser m) (fl_meta f) st (cx_dir c ++ [lit "metadata.json"]) d3 = (d4, Ok tt) /\ ran (m_script m) (cx_post c) d4 d') as (d1 & st & d3 & d4 & R1 & BM & SM & R2).
  { unfold cli_build in B. destruct (run_scripts _ (cx_pre c) d) as [d1 [e|]] eqn:R1; [discriminate|]. destruct (build_and_merge m c d1) as [st r] eqn:BM.
    destruct r as [[]| | |]; try discriminate. destruct (merged_output _ _ _ _ BM) as (out & _ & _ & Cf & _). destruct (save _ st _ _) as [d3 r] eqn:S. destruct r as [[]| | |]; try discriminate.
    rewrite Cf, CM in B. destruct (save_metadata _ _ st _ d3) as [d4 r4] eqn:SM. destruct r4 as [[]| | |]; try discriminate. destruct (run_scripts _ (cx_post c) d4) as [d5 [e|]] eqn:R2; [discriminate|].
    injection B as _ <-. apply run_scripts_ran in R1, R2. exists d1, st, d3, d4. now repeat split. }
  clear B. destruct (merged_output _ _ _ _ BM) as (out & O & D & Cf & Pl & ST & _).
  pose proof BM as BM'. unfold build_and_merge in BM'. destruct (build _ _ _ _ _) as [st1 r] eqn:Bd. destruct r as [u| | |]; try discriminate. destruct u.
  assert (S1 : snd (build (m_host m) (m_osenv m) (cx_mode c) (source_at (cx_dir c ++ [lit "content"]) d1) (cx_stuart c)) = Ok tt) by (now rewrite Bd).
  destruct (built_dir _ _ _ _ _ S1) as (l & out0 & L & O0 & D0 & _).
  pose proof (built_stated _ _ _ _ _ _ _ NP CM S1 O0 L) as SC. pose proof (build_described _ _ _ _ _ _ NP S1 O0 CM) as DE.
  rewrite Bd in O0. cbn [fst] in O0. cbn [source_at sd_ent sd_name] in L, SC.
  destruct (merge_dirs_output _ _ _ _ _ _ out0 O0 BM') as (out2 & O2 & _ & _ & K0 & _). assert (out2 = out) by congruence. subst out2. clear O2.
  pose proof (merge_dirs_only _ _ _ _ _ _ _ _ O0 BM' O) as MO.
  assert (DO : describable out).
  { intros nm b p meta src I. apply inside_at in I. destruct I as [ks I]. destruct (MO _ _ I) as (y & SN & [A|(n & e & t & _ & _ & C & A)]); destruct y as [k2 b2 p2 m2 s2|]; try destruct SN; subst.
    - apply at_inside in A. destruct H0 as (-> & -> & -> & ->). exact (DE _ _ _ _ _ A).
    - pose proof (static_only _ _ _ _ _ C _ _ A) as (_ & _ & -> & _). destruct H0 as (_ & _ & -> & _). now left. }
  destruct (metadata_described st out) as (ch & vs & Ch & F & MV); [now rewrite Cf|exact O|exact D|exact DO|].
  destruct out as [|nm ch0 src0]; [discriminate|]. cbn [n_children] in Ch. injection Ch as ->.
  destruct (meta_kind _ _ _ _ _ _ SM) as (v & MV' & W). rewrite MV in MV'. injection MV' as <-. rewrite Cf in W.
  set (others := match lookup (cx_dir c ++ [lit "static"]) d1 with Some e => [e] | None => [] end ++ match lookup (cx_dir c ++ [lit "temp"]) d1 with Some e => [e] | None => [] end).
  assert (OT : forall e, In e others <-> lookup (cx_dir c ++ [lit "static"]) d1 = Some e \/ lookup (cx_dir c ++ [lit "temp"]) d1 = Some e).
  { intros e. unfold others. rewrite in_app_iff. destruct (lookup (cx_dir c ++ [lit "static"]) d1), (lookup (cx_dir c ++ [lit "temp"]) d1); cbn [In]; intuition congruence. }
  exists d1, d4, (EDir l), others, vs. split; [exact R1|]. split; [exact R2|]. split; [exact L|]. split; [exact OT|]. split; [|exact W]. clear W.
  assert (LI : forall p x, p <> [] -> at_names (NDir nm ch src0) p x -> exists v, described x v /\ listed_at vs p v).
  { intros p x NE A. inversion A as [|? ? ? cx ks ? Ic A']; subst; [congruence|]. exact (nodes_listed _ _ _ A' _ _ Ic F). }
  assert (KEEP : forall e, In e others -> exists t n, In n [lit "static"; lit "temp"] /\ create_from (m_host m) [] false (cx_dir c ++ [n]) n e = Ok t /\ kept t (NDir nm ch src0)).
  { intros e I. apply OT in I. destruct I as [I|I]; [destruct (ST (lit "static") e ltac:(now left) I) as (_ & t & _ & C & K)|destruct (ST (lit "temp") e ltac:(right; now left) I) as (_ & t & _ & C & K)];
      [exists t, (lit "static")|exists t, (lit "temp")]; (split; [|now split]); [now left|right; now left]. }
  constructor.
  - intros ks k v LA. destruct (listed_nodes _ _ _ LA _ F) as (cx & ks' & n & Ic & E & A & Dn).
    assert (A' : at_names (NDir nm ch src0) (ks ++ [k]) n) by (rewrite E; now constructor). assert (Nn : n_name n = k) by (exact (at_names_name _ _ _ _ A')).
    destruct (MO _ _ A') as (y & SN & [Ay|(n' & e & t & In' & Le & C & Ay)]).
    + pose proof (stated_only _ _ _ _ SC _ _ Ay) as X. destruct n as [k1 b1 p1 m1 s1|k1 ch1 s1], y as [k2 b2 p2 m2 s2|k2 ch2 s2]; try destruct SN.
      * destruct H0 as (<- & <- & <- & <-). subst k2. destruct X as (nme & b & v' & FS & Dv & P & _). destruct (P _ eq_refl) as (ks0 & EK & Ea). apply app_inj_tail in EK. destruct EK as [<- <-].
        right. left. exists nme, b. split; [exact Ea|]. cbn [n_name] in *. enough (v = v') as -> by exact FS. inversion Dn; subst; inversion Dv; subst; congruence.
      * destruct X as [l' X]. left. inversion Dn as [? ? ? vs' F'| |]; subst. exists vs', (EDir l), l'. split; [reflexivity|]. split; [now left|exact X].
    + pose proof (static_only _ _ _ _ _ C _ _ Ay) as X. assert (Io : In e others) by (apply OT; destruct In' as [<-|[<-|[]]]; [now left|now right]).
      destruct n as [k1 b1 p1 m1 s1|k1 ch1 s1], y as [k2 b2 p2 m2 s2|k2 ch2 s2]; try destruct SN.
      * destruct H0 as (<- & <- & <- & <-). subst k2. destruct X as (Ea & _ & -> & _). right. right. exists e, b1. split; [exact Io|]. split; [exact Ea|]. inversion Dn; subst. reflexivity.
      * destruct X as [l' X]. left. inversion Dn as [? ? ? vs' F'| |]; subst. exists vs', e, l'. split; [reflexivity|]. split; [now right|exact X].
  - intros ks k e l' [<-|I] A.
    + destruct (stated_dirs _ _ _ _ SC _ _ A) as (nm1 & ch1 & src1 & A1). apply K0 in A1. destruct A1 as (x & A1 & SN). destruct x as [|k2 ch2 s2]; [destruct SN|].
      assert (k2 = k) by (exact (at_names_name _ _ _ _ A1)). subst k2. destruct (LI _ _ (fun Q => app_cons_not_nil _ _ _ (eq_sym Q)) A1) as (v & Dv & LA). inversion Dv as [? ? ? vs' F'| |]; subst. now exists vs'.
    + destruct (KEEP e I) as (t & n & _ & C & K). destruct (static_dirs _ _ _ _ _ C _ _ A) as (nm1 & ch1 & src1 & A1). apply K in A1. destruct A1 as (x & A1 & SN). destruct x as [|k2 ch2 s2]; [destruct SN|].
      assert (k2 = k) by (exact (at_names_name _ _ _ _ A1)). subst k2. destruct (LI _ _ (fun Q => app_cons_not_nil _ _ _ (eq_sym Q)) A1) as (v & Dv & LA). inversion Dv as [? ? ? vs' F'| |]; subst. now exists vs'.
  - intros ks name b A. destruct (stated_files _ _ _ _ SC _ _ _ A) as (k & o & pc & mm & s & v & A1 & Dv & FS). apply K0 in A1. destruct A1 as (x & A1 & SN).
    destruct x as [k2 b2 p2 m2 s2|]; [|destruct SN]. destruct SN as (-> & -> & -> & -> & ->). destruct (LI _ _ (fun Q => app_cons_not_nil _ _ _ (eq_sym Q)) A1) as (v' & Dv' & LA). exists k, v. split; [exact FS|].
    enough (v' = v) as <- by exact LA. inversion Dv; subst; inversion Dv'; subst; congruence.
  - intros ks k e b I A. destruct (KEEP e I) as (t & n & _ & C & K). destruct (static_all _ _ _ _ _ C _ _ A) as (k' & src & A1). apply K in A1. destruct A1 as (x & A1 & SN).
    destruct x as [k2 b2 p2 m2 s2|]; [|destruct SN]. destruct SN as (-> & -> & -> & -> & ->). assert (k' = k) by (exact (at_names_name _ _ _ _ A1)). subst k'.
    destruct (LI _ _ (fun Q => app_cons_not_nil _ _ _ (eq_sym Q)) A1) as (v' & Dv' & LA). inversion Dv'; subst. exact LA.
Qed.
