(** SiteDisk.v -- from the files of the content directory to the saved pages (C61). *)

From Coq Require Import String List NArith ZArith Bool Lia.
From Verif Require Import Text Json Base Syntax Parse Tree Interp Build Disk Cli SpecScope SpecTree SpecDisk SpecProject SpecSite.
From Verif Require Import TextFacts ScopeFacts TreeFacts PathFacts MergeFacts BuilderFacts DiskFacts SaveFacts ProjectFacts CliFacts SiteFacts.
Import ListNotations.

Lemma page_saved cf : (forall dir n l, saves cf dir n l -> forall ks k b meta src, at_names n ks (NFile k b PNone meta src) -> ~ hidden cf k ->
    forall ks' q, n_name n :: ks = ks' ++ [k] -> saved_as cf ks' k q -> In (dir ++ q, Some b) l) /\
  (forall dir ch l, saves_all cf dir ch l -> forall c ks k b meta src, In c ch -> at_names c ks (NFile k b PNone meta src) -> ~ hidden cf k ->
    forall ks' q, n_name c :: ks = ks' ++ [k] -> saved_as cf ks' k q -> In (dir ++ q, Some b) l).
Proof.
  apply (saves_both cf (fun dir n l _ => forall ks k b meta src, at_names n ks (NFile k b PNone meta src) -> ~ hidden cf k ->
      forall ks' q, n_name n :: ks = ks' ++ [k] -> saved_as cf ks' k q -> In (dir ++ q, Some b) l)
    (fun dir ch l _ => forall c ks k b meta src, In c ch -> at_names c ks (NFile k b PNone meta src) -> ~ hidden cf k ->
      forall ks' q, n_name c :: ks = ks' ++ [k] -> saved_as cf ks' k q -> In (dir ++ q, Some b) l)).
  - intros dir name b pc meta src H ks k b' meta' src' A N. inversion A; subst. contradiction.
  - intros dir name stem b pc meta src H S P ks k b' meta' src' A N ks' q E Q. inversion A; subst. cbn [n_name] in E.
    destruct ks' as [|x ks']; [|destruct ks'; discriminate]. right; left. f_equal. f_equal.
    destruct S as (S1 & S2 & S3 & S4). inversion Q as [? stem' (_ & _ & _ & Q4)|? stem' (_ & _ & _ & Q4) QE|? Q4]; subst.
    + apply app_inv_tail in Q4. now subst.
    + apply app_inv_tail in Q4. subst stem'. destruct P as (P1 & P2 & _). now destruct QE.
    + now destruct (Q4 stem).
  - intros dir name stem b pc meta src H S P ks k b' meta' src' A N ks' q E Q. inversion A; subst. cbn [n_name] in E.
    destruct ks' as [|x ks']; [|destruct ks'; discriminate]. right; left. f_equal. f_equal.
    destruct S as (S1 & S2 & S3 & S4). inversion Q as [? stem' (_ & _ & _ & Q4) QP|? stem' (_ & _ & _ & Q4) QE|? Q4]; subst.
    + apply app_inv_tail in Q4. subst stem'. destruct QP as (P1 & P2 & _). now destruct P.
    + reflexivity.
    + now destruct (Q4 stem).
  - intros dir name b pc meta src H S P ks k b' meta' src' A N ks' q E Q. inversion A; subst. cbn [n_name] in E.
    destruct ks' as [|x ks']; [|destruct ks'; discriminate]. left. f_equal. f_equal.
    inversion Q as [? stem' QS|? stem' QS|? Q4]; subst; [now destruct (S stem')|now destruct (S stem')|reflexivity].
  - intros dir name ch src l P S IH ks k b meta' src' A N ks' q E Q. inversion A; subst. right. cbn [n_name] in E.
    destruct ks' as [|x ks']; [discriminate|]. injection E as <- E.
    assert (exists q', q = name :: q' /\ saved_as cf ks' k q') as (q' & -> & Q').
    { inversion Q; subst; (eexists; split; [reflexivity|]); [eapply sa_page|eapply sa_nameless|eapply sa_whole]; eassumption. }
    match goal with H : In ?x ch, H' : at_names ?x ?j _ |- _ => specialize (IH x j k b meta' src' H H' N ks' q' E Q') end.
    now rewrite <- app_assoc in IH.
  - intros dir c ks k b meta src [].
  - intros dir c ch l l' _ IH _ IH' x ks k b meta src [<-|I] A N ks' q E Q; apply in_app_iff; [left|right]; eauto.
Qed.
Lemma lookup_distinct p : forall d e, ent_distinct d -> lookup p d = Some e -> ent_distinct e.
Proof.
  induction p as [|c p IH]; intros d e D L; cbn [lookup] in L; [now injection L as <-|]. destruct d as [|l|]; try discriminate.
  destruct (assoc c l) as [x|] eqn:A; [|discriminate]. apply assoc_in in A. inversion D as [| |? _ F]; subst. rewrite Forall_forall in F. exact (IH x e (F _ A) L).
Qed.
Lemma merged_kept m c d st : build_and_merge m c d = (st, Ok tt) ->
  let b := build (m_host m) (m_osenv m) (cx_mode c) (source_at (cx_dir c ++ [lit "content"]) d) (cx_stuart c) in
  exists out0 out, snd b = Ok tt /\ st_output (fst b) = Some out0 /\ st_output st = Some out /\ kept out0 out.
Proof.
  unfold build_and_merge. destruct (build _ _ _ _ _) as [st1 r] eqn:B. destruct r as [u| | |]; try discriminate. intros M.
  assert (S1 : snd (build (m_host m) (m_osenv m) (cx_mode c) (source_at (cx_dir c ++ [lit "content"]) d) (cx_stuart c)) = Ok tt) by (rewrite B; now destruct u).
  destruct (built_dir _ _ _ _ _ S1) as (l & out0 & L & O & D & F). rewrite B in O. cbn [fst] in O.
  destruct (merge_dirs_output _ _ _ _ _ _ out0 O M) as (out & O' & _ & _ & K & _).
  exists out0, out. cbn [fst snd]. now destruct u.
Qed.
Lemma page_on_disk m f c d c' d' d1 content ks name o q l out ch : cli_build m f c d = (c', d', COk) -> ran (m_script m) (cx_pre c) d d1 ->
  ent_distinct d1 -> (forall e, fl_temp f = Some (Some e) -> ent_distinct e) ->
  lookup (cx_dir c ++ [lit "content"]) d1 = Some content ->
  published (m_host m) (st_plugins (cx_stuart c)) (page_vars (m_osenv m) (cx_mode c)) content ks name o ->
  ~ hidden (st_config (cx_stuart c)) name -> saved_as (st_config (cx_stuart c)) ks name q ->
  st_output (cx_stuart c') = Some out -> n_children out = Some ch -> saves_all (st_config (cx_stuart c)) [] ch l ->
  (forall b', In (q, Some b') l -> b' = o) ->
  output_dir c ++ q <> cx_dir c ++ [lit "metadata.json"] ->
  scripts_leave (m_script m) (cx_post c) (eq (output_dir c ++ q)) ->
  what (output_dir c ++ q) d' = KFile o.
Proof.
  intros B R D FT L P H Q O C SA U NM SL. destruct (build_saved _ _ _ _ _ _ B) as (d1' & st & d3 & d4 & out' & R1 & BM & -> & O' & S & W & R2).
  assert (d1' = d1) by (apply run_scripts_ran in R, R1; congruence). subst d1'. cbn [set_stuart cx_stuart] in *.
  destruct (merged_output _ _ _ _ BM) as (out2 & O2 & _ & Cf & _). assert (out2 = out) by congruence. subst out2. clear out' O' O2.
  destruct (merged_kept _ _ _ _ BM) as (out0 & out2 & B1 & O0 & O2 & K). assert (out2 = out) by congruence. subst out2. clear O2.
  assert (DC : ent_distinct content) by (eapply lookup_distinct; eassumption).
  destruct (site_published _ _ _ _ _ content out0 B1 O0 L DC _ _ _ P) as (meta & src & A).
  apply K in A. destruct A as (y & A & SN). destruct y as [k2 b2 pc2 meta2 src2|]; [|destruct SN]. cbn in SN. destruct SN as (-> & -> & -> & -> & ->).
  assert (I : In (q, Some o) l).
  { destruct out as [|nm chx srcx]; [discriminate|]. cbn in C. injection C as ->. remember (ks ++ [name]) as kk eqn:E1. inversion A as [|? ? ? cx ksx ? Ix Ax]; subst.
    exact (proj2 (page_saved (st_config (cx_stuart c))) [] ch l SA cx ksx name o meta src Ix Ax H ks q ltac:(assumption) Q). }
  rewrite <- Cf in SA. pose proof (save_exactly _ _ _ _ _ _ _ _ O C SA (remove_temp_distinct _ _ _ D FT) S) as X.
  destruct (last_exists _ _ _ I) as [b' LF]. assert (b' = o) by (apply U; now apply last_in). subst b'. apply X in LF.
  apply run_scripts_ran in R2. pose proof (run_scripts_leave _ _ _ d4 _ SL eq_refl) as W5. rewrite R2 in W5. cbn [fst] in W5. rewrite W5, (W _ NM). exact LF.
Qed.

(** ** All of the saved entries *)
Lemma saved_files cf : (forall dir n l, saves cf dir n l -> forall q b, In (q, Some b) l ->
    exists ks k pc meta src dirs q', at_names n ks (NFile k b pc meta src) /\ n_name n :: ks = dirs ++ [k] /\ ~ hidden cf k /\
      (pc = PNone -> saved_as cf dirs k q') /\ (pc = PIgnored -> q' = dirs ++ [k]) /\ q = dir ++ q') /\
  (forall dir ch l, saves_all cf dir ch l -> forall q b, In (q, Some b) l ->
    exists c ks k pc meta src dirs q', In c ch /\ at_names c ks (NFile k b pc meta src) /\ n_name c :: ks = dirs ++ [k] /\ ~ hidden cf k /\
      (pc = PNone -> saved_as cf dirs k q') /\ (pc = PIgnored -> q' = dirs ++ [k]) /\ q = dir ++ q').
Proof.
  apply (saves_both cf (fun dir n l _ => forall q b, In (q, Some b) l ->
      exists ks k pc meta src dirs q', at_names n ks (NFile k b pc meta src) /\ n_name n :: ks = dirs ++ [k] /\ ~ hidden cf k /\
        (pc = PNone -> saved_as cf dirs k q') /\ (pc = PIgnored -> q' = dirs ++ [k]) /\ q = dir ++ q')
    (fun dir ch l _ => forall q b, In (q, Some b) l ->
      exists c ks k pc meta src dirs q', In c ch /\ at_names c ks (NFile k b pc meta src) /\ n_name c :: ks = dirs ++ [k] /\ ~ hidden cf k /\
        (pc = PNone -> saved_as cf dirs k q') /\ (pc = PIgnored -> q' = dirs ++ [k]) /\ q = dir ++ q')).
  - intros dir name b pc meta src H q b' [].
  - intros dir name stem b pc meta src H S P q b' [I|[I|[]]]; [discriminate|]. injection I as <- <-.
    exists [], name, pc, meta, src, [], [stem; lit "index.html"]. split; [constructor|]. split; [reflexivity|]. split; [exact H|]. split; [intros ->; now apply (sa_page cf [] name stem)|].
    split; [|reflexivity]. intros ->. now destruct S as (_ & _ & X & _).
  - intros dir name stem b pc meta src H S P q b' [I|[I|[]]]; [discriminate|]. injection I as <- <-.
    exists [], name, pc, meta, src, [], [lit "index.html"]. split; [constructor|]. split; [reflexivity|]. split; [exact H|]. split; [intros ->; now apply (sa_nameless cf [] name stem)|].
    split; [|reflexivity]. intros ->. now destruct S as (_ & _ & X & _).
  - intros dir name b pc meta src H S P q b' [I|[]]. injection I as <- <-.
    exists [], name, pc, meta, src, [], [name]. split; [constructor|]. split; [reflexivity|]. split; [exact H|]. split; [intros ->; now apply (sa_whole cf [])|]. now split.
  - intros dir name ch src l P S IH q b [I|I]; [discriminate|].
    destruct (IH q b I) as (c & ks & k & pc & meta & src' & dirs & q' & Ic & A & E & H & Q & Q2 & ->).
    exists (n_name c :: ks), k, pc, meta, src', (name :: dirs), (name :: q'). split; [now constructor|]. cbn [n_name app]. rewrite E. split; [reflexivity|]. split; [exact H|].
    split; [|split; [intros N; now rewrite (Q2 N)|now rewrite <- app_assoc]]. intros N. specialize (Q N). inversion Q; subst; [eapply (sa_page cf (name :: dirs))|eapply (sa_nameless cf (name :: dirs))|eapply (sa_whole cf (name :: dirs))]; eassumption.
  - intros dir q b [].
  - intros dir c ch l l' _ IH _ IH' q b I. apply in_app_iff in I. destruct I as [I|I].
    + destruct (IH q b I) as (ks & k & pc & meta & src & dirs & q' & R). exists c, ks, k, pc, meta, src, dirs, q'. split; [now left|exact R].
    + destruct (IH' q b I) as (c' & ks & k & pc & meta & src & dirs & q' & Ic & R). exists c', ks, k, pc, meta, src, dirs, q'. split; [now right|exact R].
Qed.
Definition needed (cf : config) (n : node) (ks : list text) (r : path) : Prop :=
  (exists nm ch src, at_names n ks (NDir nm ch src) /\ r = n_name n :: ks) \/
  (exists k b pc meta src stem dirs, at_names n ks (NFile k b pc meta src) /\ n_name n :: ks = dirs ++ [k] /\ ~ hidden cf k /\ stripped cf k pc stem /\ r = dirs ++ [stem]).
Lemma saved_dirs cf : (forall dir n l, saves cf dir n l -> forall q, In (q, None) l -> q = dir \/ exists ks r, needed cf n ks r /\ q = dir ++ r) /\
  (forall dir ch l, saves_all cf dir ch l -> forall q, In (q, None) l -> q = dir \/ exists c ks r, In c ch /\ needed cf c ks r /\ q = dir ++ r).
Proof.
  apply (saves_both cf (fun dir n l _ => forall q, In (q, None) l -> q = dir \/ exists ks r, needed cf n ks r /\ q = dir ++ r)
    (fun dir ch l _ => forall q, In (q, None) l -> q = dir \/ exists c ks r, In c ch /\ needed cf c ks r /\ q = dir ++ r)).
  - intros dir name b pc meta src H q [].
  - intros dir name stem b pc meta src H S P q [I|[I|[]]]; [|discriminate]. injection I as <-. right. exists [], [stem]. split; [|reflexivity].
    right. exists name, b, pc, meta, src, stem, []. split; [constructor|]. repeat (split; [assumption || reflexivity|]); assumption || reflexivity.
  - intros dir name stem b pc meta src H S P q [I|[I|[]]]; [|discriminate]. injection I as <-. now left.
  - intros dir name b pc meta src H S P q [I|[]]. discriminate.
  - intros dir name ch src l P S IH q [I|I].
    + injection I as <-. right. exists [], [name]. split; [|reflexivity]. left. exists name, ch, src. split; [constructor|reflexivity].
    + right. destruct (IH q I) as [->|(c & ks & r & Ic & N & ->)].
      * exists [], [name]. split; [|reflexivity]. left. exists name, ch, src. split; [constructor|reflexivity].
      * exists (n_name c :: ks), (name :: r). split; [|now rewrite <- app_assoc]. destruct N as [(nm & ch' & s & A & ->)|(k & b & pc & meta & s & stem & dirs & A & E & H & St & ->)].
        -- left. exists nm, ch', s. split; [now constructor|reflexivity].
        -- right. exists k, b, pc, meta, s, stem, (name :: dirs). split; [now constructor|]. cbn [n_name app]. rewrite E. now repeat split; try apply St.
  - intros dir q [].
  - intros dir c ch l l' _ IH _ IH' q I. apply in_app_iff in I. destruct I as [I|I].
    + destruct (IH q I) as [->|(ks & r & N & ->)]; [now left|right]. exists c, ks, r. split; [now left|now split].
    + destruct (IH' q I) as [->|(c' & ks & r & Ic & N & ->)]; [now left|right]. exists c', ks, r. split; [now right|now split].
Qed.
Lemma built_dirs ps name e out : built_from ps name e out -> forall ks nm ch src, at_names out ks (NDir nm ch src) -> exists l, ent_at e ks (EDir l).
Proof.
  revert name out. induction e as [b| |l IH] using ent_ind2; intros name out B ks nm ch src A.
  - inversion B; subst; inversion A.
  - inversion B.
  - inversion B as [? ? ch0 src0 F| | | |]; subst. inversion A as [|? ? ? c ks' ? I A']; subst; [exists l; constructor|].
    destruct (Forall2_in_r _ _ _ _ F I) as ([k e] & Ik & Bk). cbn [fst snd] in Bk. rewrite Forall_forall in IH.
    destruct (IH _ Ik _ _ Bk _ _ _ _ A') as [l' E]. exists l'.
    assert (N : n_name c = k).
    { inversion Bk; subst; try (inversion A'; fail). reflexivity. }
    rewrite N. econstructor; eassumption.
Qed.

(** ** The static directory *)
Lemma static_created h e : (forall ks, ~ ent_at e ks EOther) -> forall p name, exists n, create_from h [] false p name e = Ok n.
Proof.
  induction e as [b| |l IH] using ent_ind2; intros NO p name; [eexists; apply create_file_static|now destruct (NO []); constructor|].
  cbn [create_from]. assert (exists ch, map_res (fun ne => create_from h [] false (p ++ [fst ne]) (fst ne) (snd ne)) l = Ok ch) as [ch ->]; [|eexists; reflexivity].
  induction IH as [|[k e] l He _ IHl]; [eexists; reflexivity|]. cbn [map_res fst snd]. cbn [snd] in He.
  destruct (He (fun ks A => NO (k :: ks) (ea_child ((k, e) :: l) k e ks EOther (or_introl eq_refl) A)) (p ++ [k]) k) as [n ->]. cbn [bind].
  destruct IHl as [ch ->]; [|eexists; reflexivity]. intros ks A. apply (NO ks). inversion A; subst. econstructor; [right; eassumption|assumption].
Qed.
Lemma static_only h e : forall p name n, create_from h [] false p name e = Ok n -> forall ks x, at_names n ks x ->
  match x with
  | NFile k b pc meta src => ent_at e ks (EFile b) /\ pc = PIgnored /\ meta = None /\ exists r, n_name n :: ks = r ++ [k]
  | NDir _ _ _ => exists l, ent_at e ks (EDir l)
  end.
Proof.
  induction e as [b| |l IH] using ent_ind2; intros p name n C ks x A; [|discriminate|].
  - cbn [create_from] in C. rewrite create_file_static in C. injection C as <-. inversion A; subst. split; [constructor|]. split; [reflexivity|]. split; [reflexivity|]. now exists [].
  - cbn [create_from] in C. destruct (map_res _ l) as [ch| | |] eqn:M; try discriminate. cbn [bind] in C. injection C as <-. apply map_res_ok in M.
    inversion A as [|? ? ? c ks' ? Ic A']; subst; [exists l; constructor|].
    destruct (Forall2_in_r _ _ _ _ M Ic) as ([k e] & Ik & Ck). cbn [fst snd] in Ck. rewrite Forall_forall in IH. specialize (IH _ Ik _ _ _ Ck _ _ A').
    assert (N : n_name c = k) by (apply create_loaded in Ck; now apply loaded_name in Ck). destruct x as [k' b pc meta src|].
    + destruct IH as (E & -> & -> & R). split; [rewrite N; econstructor; eassumption|]. split; [reflexivity|]. split; [reflexivity|].
      destruct R as [r R]. exists (name :: r). cbn [n_name app]. now rewrite R.
    + destruct IH as [l' E]. exists l'. rewrite N. econstructor; eassumption.
Qed.
Lemma static_all h e : forall p name n, create_from h [] false p name e = Ok n -> forall ks b, ent_at e ks (EFile b) ->
  exists k src, at_names n ks (NFile k b PIgnored None src).
Proof.
  induction e as [b0| |l IH] using ent_ind2; intros p name n C ks b A; [|discriminate|].
  - inversion A; subst. cbn [create_from] in C. rewrite create_file_static in C. injection C as <-. eexists _, _. constructor.
  - cbn [create_from] in C. destruct (map_res _ l) as [ch| | |] eqn:M; try discriminate. cbn [bind] in C. injection C as <-. apply map_res_ok in M.
    inversion A as [|? k e ks' ? Ik A']; subst. destruct (Forall2_in_l _ _ _ _ M Ik) as (y & Iy & Cy). cbn [fst snd] in Cy. rewrite Forall_forall in IH.
    destruct (IH _ Ik _ _ _ Cy ks' b A') as (k' & src & H). exists k', src.
    assert (N : n_name y = k) by (apply create_loaded in Cy; now apply loaded_name in Cy). rewrite <- N. now apply an_child.
Qed.

(** ** A whole project *)
(** ** Merging the static and the temporary directory *)
Lemma merge_one h dir n d st out e : st_output st = Some out -> is_dir out = true -> present (dir ++ [n]) d e -> ent_distinct d ->
  static_in_order e ->
  (forall p x y, at_names out p x -> ent_at e p y -> is_dir x = true /\ exists l, y = EDir l) ->
  exists out' t, (forall ns, merge_dirs h dir (n :: ns) d st = merge_dirs h dir ns d (Stuart (st_input st) (Some out') (st_config st) (st_base st) (st_plugins st))) /\
    create_from h [] false (dir ++ [n]) n e = Ok t /\ is_dir out' = true /\
    (forall p x, at_names out' p x -> exists y, (at_names out p y \/ at_names t p y) /\ same_node x y) /\
    (forall p y, at_names out p y \/ at_names t p y -> exists x, at_names out' p x /\ same_node x y).
Proof.
  intros O ID LS D [[ls ES] SO] NC. destruct LS as [LS|[LS ->]].
  - destruct (static_created h e SO (dir ++ [n]) n) as [t CT].
    assert (DT : distinct t) by (eapply loaded_distinct; [eapply lookup_distinct; [exact D|exact LS]|eapply create_loaded; exact CT]).
    assert (IT : is_dir t = true).
    { rewrite ES in CT. cbn [create_from] in CT. destruct (map_res _ _) in CT; cbn [bind] in CT; try discriminate. now injection CT as <-. }
    assert (MD : snd (merge out t) = Done).
    { assert (Q : snd (merge out t) = Done \/ snd (merge out t) <> Done) by (destruct (snd (merge out t)); [now left|now right|now right]).
      destruct Q as [Q|Q]; [exact Q|]. exfalso.
      destruct (merge_any_failed _ _ DT ID IT Q) as (p & x & y & (C1 & C2 & C3) & _).
      pose proof (static_only _ _ _ _ _ CT _ _ C2) as Y. destruct y as [k b pc mm s|k ch s].
      - destruct Y as [Y _]. destruct (NC _ _ _ C1 Y) as [_ [l X]]. discriminate X.
      - destruct Y as [l Y]. destruct (NC _ _ _ C1 Y) as [X _]. destruct C3 as [C3|C3]; [congruence|discriminate C3]. }
    destruct (merge out t) as [out' r] eqn:M. cbn [snd] in MD. subst r. exists out', t.
    split; [|split; [exact CT|split; [|apply (merge_any_union _ _ _ M)]]].
    + intros ns. cbn [merge_dirs]. rewrite LS. unfold node_new. rewrite ES in CT |- *. rewrite CT. unfold merge_output. rewrite O, M. reflexivity.
    + destruct (proj2 (merge_any_union _ _ _ M) [] out (or_introl (an_here _))) as (x & A & S). inversion A; subst. destruct x, out; try discriminate; try contradiction; reflexivity.
  - exists out, (NDir n [] (dir ++ [n])). split; [|split; [reflexivity|split; [exact ID|split]]].
    + intros ns. cbn [merge_dirs]. rewrite LS. destruct st as [i o cf b p]. cbn in O. now subst o.
    + intros p x A. exists x. split; [now left|apply same_node_refl].
    + intros p y [A|A]; [exists y; split; [exact A|apply same_node_refl]|].
      inversion A; subst; [|contradiction]. exists out. split; [constructor|]. now destruct out.
Qed.
Lemma file_place n0 ch0 s0 : forall p k o pc mm s, at_names (NDir n0 ch0 s0) p (NFile k o pc mm s) -> exists ks, p = ks ++ [k].
Proof.
  intros p k o pc mm s C1. remember (NDir n0 ch0 s0) as r eqn:Er. assert (NR : forall k b pc mm s, r <> NFile k b pc mm s) by (now subst). clear Er.
  remember (NFile k o pc mm s) as f eqn:Ef. induction C1 as [n|name ch src x ks n I A IH]; [now subst; destruct (NR k o pc mm s)|].
  destruct x as [kx bx px mx sx|nx chx sx]; [inversion A; subst; match goal with H : NFile _ _ _ _ _ = NFile _ _ _ _ _ |- _ => injection H as -> -> -> -> -> | _ => idtac end; now exists []|].
  destruct (IH Ef) as [ks' ->]; [discriminate|]. now exists (n_name (NDir nx chx sx) :: ks').
Qed.

(** ** Descriptions of the merged tree *)
Lemma at_inside n ks x : at_names n ks x -> inside x n.
Proof. induction 1 as [n|name ch src c ks n I A IH]; [constructor|]. now apply (in_child _ _ _ _ c). Qed.
Lemma inside_at x n : inside x n -> exists ks, at_names n ks x.
Proof. induction 1 as [n|name ch src c n I A IH]; [exists []; constructor|]. destruct IH as [ks IH]. exists (n_name n :: ks). now constructor. Qed.
Lemma created_plain h ps e : flat_map pl_parsers ps = [] -> forall p name n, create_from h ps true p name e = Ok n ->
  forall nm b c meta src, ~ inside (NFile nm b (PCustom c) meta src) n.
Proof.
  intros NP. induction e as [b| |l IH] using ent_ind2; intros p name n C nm b' c meta src I; [|discriminate|].
  - cbn [create_from] in C. destruct (create_file_kind _ _ _ _ _ _ C) as (pc & -> & K). inversion I; subst.
    destruct K as [(X & t & E)|[(X & m & E & _)|[(X & v & E)|[(e1 & np & cc & _ & _ & _ & _ & K & _)|(E & K)]]]]; try discriminate E.
    rewrite NP in K. destruct K.
  - cbn [create_from] in C. destruct (map_res _ l) as [ch| | |] eqn:M; try discriminate. cbn [bind] in C. injection C as <-. apply map_res_ok in M.
    inversion I as [|? ? ? x ? Ix Jx]; subst. destruct (Forall2_in_r _ _ _ _ M Ix) as (y & Iy & Cy). rewrite Forall_forall in IH. exact (IH _ Iy _ _ _ Cy _ _ _ _ _ Jx).
Qed.
Lemma preprocess_plain pr n : forall n', preprocess pr n = Ok n' -> (forall nm b c meta src, ~ inside (NFile nm b (PCustom c) meta src) n) ->
  forall nm b c meta src, ~ inside (NFile nm b (PCustom c) meta src) n'.
Proof.
  induction n as [name b p meta src|name ch src IH] using node_ind2; intros n' P N nm b' c meta' src' I.
  - cbn [preprocess] in P. destruct p as [t|m|v|cc| |]; try (injection P as <-; exact (N _ _ _ _ _ I)).
    destruct (preprocess_markdown _ _ _) as [m'| | |]; try discriminate. cbn [bind] in P. injection P as <-. inversion I.
  - cbn [preprocess] in P. destruct (map_res _ ch) as [ch'| | |] eqn:M; try discriminate. cbn [bind] in P. injection P as <-. apply map_res_ok in M.
    inversion I as [|? ? ? x ? Ix Jx]; subst. destruct (Forall2_in_r _ _ _ _ M Ix) as (y & Iy & Cy). rewrite Forall_forall in IH.
    apply (IH _ Iy _ Cy) in Jx; [exact Jx|]. intros ? ? ? ? ? J. exact (N _ _ _ _ _ (in_child _ _ _ _ y Iy J)).
Qed.

Lemma build_described h osenv mode d st out : flat_map pl_parsers (st_plugins st) = [] -> snd (build h osenv mode d st) = Ok tt ->
  st_output (fst (build h osenv mode d st)) = Some out -> cf_meta (st_config st) = true -> describable out.
Proof.
  intros NP B O CM. unfold build, node_new in *. destruct (sd_ent d) as [[|l|]|]; try discriminate.
  destruct (create_from h (st_plugins st) true (sd_path d) (sd_name d) (EDir l)) as [input|x|q|] eqn:C; try discriminate.
  destruct (preprocess _ input) as [input'|x|q|] eqn:P; try discriminate.
  destruct (build_tree _ _ _ _) as [[i o]|x|q|] eqn:T; try discriminate. cbn in O. injection O as <-. rewrite CM in T.
  eapply records_describable; [eapply tree_records; exact T|]. intros nm b c meta src I. exfalso. revert I.
  unfold build_tree in T. rewrite CM in P. rewrite P in T. cbn [bind] in T. destruct (n_children input'); [|discriminate].
  match type of T with bind ?x _ = _ => destruct x; cbn [bind] in T; try discriminate end. injection T as <- _.
  eapply preprocess_plain; [exact P|]. eapply created_plain; [exact NP|exact C].
Qed.
Lemma parent_above q : above (parent q) q.
Proof. destruct q as [|k q]; [exists []; reflexivity|]. exists [last (k :: q) []]. unfold parent. apply app_removelast_last. discriminate. Qed.

Lemma project_scripted m c d d1 content statics temps both : ran (m_script m) (cx_pre c) d d1 ->
  lookup (cx_dir c ++ [lit "content"]) d1 = Some content ->
  present (cx_dir c ++ [lit "static"]) d1 statics -> present (cx_dir c ++ [lit "temp"]) d1 temps ->
  ent_distinct d1 -> inward_project c d1 ->
  site_in_order (m_host m) (st_plugins (cx_stuart c)) (page_vars (m_osenv m) (cx_mode c)) content ->
  static_in_order statics -> static_in_order temps -> share_dirs statics temps -> overlay statics temps both ->
  no_conflict (m_host m) (st_plugins (cx_stuart c)) (page_vars (m_osenv m) (cx_mode c)) content both ->
  no_overlap (m_host m) (st_plugins (cx_stuart c)) (page_vars (m_osenv m) (cx_mode c)) content (st_config (cx_stuart c)) both ->
  output_dir c <> [] -> what (parent (output_dir c)) d1 = KDir -> what (output_dir c) d1 = KNone \/ what (output_dir c) d1 = KDir ->
  lookup (cx_dir c ++ [lit "temp"]) d1 = None \/ ~ above (cx_dir c ++ [lit "temp"]) (output_dir c) ->
  (cf_meta (st_config (cx_stuart c)) = true -> (what (cx_dir c ++ [lit "metadata.json"]) d1 = KNone \/ exists b, what (cx_dir c ++ [lit "metadata.json"]) d1 = KFile b) /\
    ~ above (output_dir c) (cx_dir c ++ [lit "metadata.json"])) ->
  exists d2, (forall q o, what (output_dir c ++ q) d2 = KFile o <->
      file_at (m_host m) (st_plugins (cx_stuart c)) (page_vars (m_osenv m) (cx_mode c)) content (st_config (cx_stuart c)) both q o) /\
    (~ above (output_dir c) (cx_dir c ++ [lit "temp"]) -> what (cx_dir c ++ [lit "temp"]) d2 = KNone) /\
    (cf_meta (st_config (cx_stuart c)) = true -> exists v, what (cx_dir c ++ [lit "metadata.json"]) d2 = KFile (m_ser m v)) /\
    forall d3, ran (m_script m) (cx_post c) d2 d3 -> exists c', cli_build m no_faults c d = (c', d3, COk).
Proof.
  intros Rn LC LS LT D IP Or SO1 SO2 AP [OV1 OV2] [NC1 NC2] [NO1 NO2] NE PD W NTO CMH.
  assert (DC : ent_distinct content) by (eapply lookup_distinct; eassumption).
  set (b := build (m_host m) (m_osenv m) (cx_mode c) (source_at (cx_dir c ++ [lit "content"]) d1) (cx_stuart c)).
  assert (B1 : snd b = Ok tt) by (eapply site_builds; eassumption).
  destruct (built_dir _ _ _ _ _ B1) as (l0 & out0 & L0 & O0 & ID & BF). fold b in O0.
  assert (EC : content = EDir l0) by (unfold source_at in L0; cbn [sd_ent] in L0; rewrite LC in L0; now injection L0).
  assert (SF : forall ks k x, (exists pc mm s, at_names out0 (ks ++ [k]) (NFile k x pc mm s)) <->
    published (m_host m) (st_plugins (cx_stuart c)) (page_vars (m_osenv m) (cx_mode c)) content ks k x).
  { apply (site_files _ _ _ _ _ _ _ B1 O0 LC DC Or). }
  assert (SO : forall ks k x pc mm s, at_names out0 (ks ++ [k]) (NFile k x pc mm s) -> pc = PNone).
  { intros ks k x pc mm s A. now apply (site_only _ _ _ _ _ _ _ B1 O0 LC DC Or) in A. }
  assert (TU : forall e, (e = statics \/ e = temps) -> static_in_order e /\ forall ks y, ent_at e ks y -> (exists b, y = EFile b /\ ent_at both ks (EFile b)) \/ (exists l l', y = EDir l /\ ent_at both ks (EDir l'))).
  { intros e Ee. assert (SOe : static_in_order e) by (destruct Ee as [-> | ->]; assumption). split; [exact SOe|]. intros ks y A. destruct y as [b0|l|].
    - left. exists b0. split; [reflexivity|]. apply OV1. destruct Ee as [-> | ->]; [now left|now right].
    - right. destruct (proj2 (OV2 ks)) as [l' X]; [destruct Ee as [-> | ->]; [left|right]; now exists l|]. now exists l, l'.
    - exfalso. exact (proj2 SOe ks A). }
  assert (PC : forall e, (e = statics \/ e = temps) -> forall p x y, at_names out0 p x -> ent_at e p y -> is_dir x = true /\ exists l, y = EDir l).
  { intros e Ee p x y A Y. destruct (TU e Ee) as [_ T]. specialize (T p y Y). destruct x as [k o pc mm s|nx chx sx].
    - exfalso. destruct out0 as [|n0 ch0 s0]; [discriminate|]. destruct (file_place _ _ _ _ _ _ _ _ _ A) as [ks ->].
      assert (P : published (m_host m) (st_plugins (cx_stuart c)) (page_vars (m_osenv m) (cx_mode c)) content ks k o) by (apply SF; now exists pc, mm, s).
      destruct T as [(b0 & _ & T)|(l & l' & _ & T)]; exact (NC1 _ _ _ _ T P).
    - split; [reflexivity|]. destruct T as [(b0 & _ & T)|(l & l' & -> & _)]; [|now exists l]. exfalso.
      destruct (built_dirs _ _ _ _ BF _ _ _ _ A) as [l E]. rewrite EC in NC2. exact (NC2 _ _ _ T E). }
  (* the merged tree *)
  assert (Cb : st_config (fst b) = st_config (cx_stuart c)) by apply build_kept.
  destruct (merge_one (m_host m) (cx_dir c) (lit "static") d1 (fst b) out0 statics O0 ID LS D SO1 (PC _ (or_introl eq_refl)))
    as (out1 & t1 & MO1 & CT1 & ID1 & V1 & V2).
  destruct (merge_one (m_host m) (cx_dir c) (lit "temp") d1 (Stuart (st_input (fst b)) (Some out1) (st_config (fst b)) (st_base (fst b)) (st_plugins (fst b))) out1 temps eq_refl ID1 LT D SO2)
    as (out & t2 & MO2 & CT2 & IO & X1 & X2).
  { intros p x y A Y. destruct (V1 _ _ A) as (z & [Z|Z] & Sm).
    - destruct (PC _ (or_intror eq_refl) _ _ _ Z Y) as [Z1 Z2]. split; [|exact Z2]. destruct x, z; try discriminate; try contradiction; reflexivity.
    - pose proof (static_only _ _ _ _ _ CT1 _ _ Z) as Q. destruct z as [k o pc mm s|k ch s].
      + exfalso. destruct Q as [Q _]. destruct (AP _ _ _ Q Y) as [[l E] _]. discriminate E.
      + destruct Q as [l Q]. destruct (AP _ _ _ Q Y) as [_ E]. split; [|exact E]. destruct x; [contradiction|reflexivity]. }
  set (st := Stuart (st_input (fst b)) (Some out) (st_config (fst b)) (st_base (fst b)) (st_plugins (fst b))).
  assert (BM : build_and_merge m c d1 = (st, Ok tt)).
  { unfold build_and_merge. fold b. destruct b as [st1 r]. cbn [fst snd] in *. subst r. rewrite MO1, MO2. reflexivity. }
  assert (O : st_output st = Some out) by reflexivity. assert (Cf : st_config st = st_config (cx_stuart c)) by exact Cb.
  assert (U1 : forall p x, at_names out p x -> exists y, (at_names out0 p y \/ exists e nm t, (e = statics \/ e = temps) /\ create_from (m_host m) [] false (cx_dir c ++ [nm]) nm e = Ok t /\ at_names t p y) /\ same_node x y).
  { intros p x A. destruct (X1 _ _ A) as (y & [Y|Y] & Sm).
    - destruct (V1 _ _ Y) as (z & [Z|Z] & Sm'); exists z; (split; [|eapply same_node_trans; eassumption]); [now left|]. right. exists statics, (lit "static"), t1. auto.
    - exists y. split; [|exact Sm]. right. exists temps, (lit "temp"), t2. auto. }
  assert (U2 : forall p y, at_names out0 p y \/ at_names t1 p y \/ at_names t2 p y -> exists x, at_names out p x /\ same_node x y).
  { assert (K : forall p y, at_names out1 p y \/ at_names t2 p y -> exists x, at_names out p x /\ same_node x y) by exact X2.
    intros p y [Y|[Y|Y]]; [| |apply K; now right].
    - destruct (V2 p y (or_introl Y)) as (z & Z & Sm). destruct (K p z (or_introl Z)) as (x & X & Sm'). exists x. split; [exact X|]. eapply same_node_trans; eassumption.
    - destruct (V2 p y (or_intror Y)) as (z & Z & Sm). destruct (K p z (or_introl Z)) as (x & X & Sm'). exists x. split; [exact X|]. eapply same_node_trans; eassumption. }
  destruct (merged_tame _ _ _ _ BM IP) as (out' & O' & T). assert (out' = out) by (rewrite O in O'; now injection O'). subst out'. clear O'.
  assert (DE : cf_meta (st_config (cx_stuart c)) = true -> describable out).
  { intros CM nm bb pc meta src I. destruct (inside_at _ _ I) as [p A]. destruct (U1 _ _ A) as (y & [Y|(e & n & t & _ & CT & Y)] & Sm); destruct y as [k' b' p' m' s'|]; try contradiction; destruct Sm as (<- & <- & <- & <- & <-).
    - apply at_inside in Y. eapply (build_described _ _ _ _ _ _ (proj2 (proj2 (proj2 IP))) B1 O0 CM); exact Y.
    - left. now destruct (static_only _ _ _ _ _ CT _ _ Y) as (_ & _ & M & _). }
  destruct out as [|nm ch src]; [discriminate|].
  destruct (tame_saves_all (st_config st) ch (fun x y => T ch x y eq_refl) []) as [l SA].
  assert (FT : forall dirs k o pc mm s, at_names (NDir nm ch src) (dirs ++ [k]) (NFile k o pc mm s) ->
    (pc = PNone /\ published (m_host m) (st_plugins (cx_stuart c)) (page_vars (m_osenv m) (cx_mode c)) content dirs k o) \/
    (pc = PIgnored /\ ent_at both (dirs ++ [k]) (EFile o))).
  { intros dirs k o pc mm s A. destruct (U1 _ _ A) as (y & [Y|(e & n & t & Ee & CT & Y)] & Sm); destruct y as [k' b' p' m' s'|]; try contradiction; destruct Sm as (<- & <- & <- & <- & <-).
    - left. assert (pc = PNone) by (eapply SO; exact Y). subst pc. split; [reflexivity|]. apply SF. now exists PNone, mm, s.
    - right. destruct (static_only _ _ _ _ _ CT _ _ Y) as (E & -> & _). split; [reflexivity|]. apply OV1. destruct Ee as [-> | ->]; [now left|now right]. }
  assert (PA : forall q o, In (q, Some o) l <-> file_at (m_host m) (st_plugins (cx_stuart c)) (page_vars (m_osenv m) (cx_mode c)) content (st_config (cx_stuart c)) both q o).
  { intros q o. split.
    - intros I. destruct (proj2 (saved_files _) [] ch l SA q o I) as (x & ks & k & pc & mm & s & dirs & q' & Ix & A & E & H & Q & Q2 & ->).
      assert (A' : at_names (NDir nm ch src) (dirs ++ [k]) (NFile k o pc mm s)) by (rewrite <- E; now constructor). rewrite Cf in H, Q.
      destruct (FT _ _ _ _ _ _ A') as [[-> P]|[-> P]].
      + left. exists dirs, k. split; [exact P|]. split; [exact H|now apply Q].
      + right. cbn [app]. rewrite (Q2 eq_refl). split; [exact P|]. intros ks' k' E'. apply app_inj_tail in E'. now destruct E' as [_ <-].
    - intros [(ks & k & P & H & Q)|[P H]].
      + apply SF in P. destruct P as (pc & mm & s & A). assert (pc = PNone) by (eapply SO; exact A). subst pc.
        destruct (U2 _ _ (or_introl A)) as (x & A' & Sm). destruct x as [k' b' p' m' s'|]; [|contradiction]. destruct Sm as (-> & -> & -> & -> & ->).
        remember (ks ++ [k]) as kk eqn:Ek. inversion A' as [|? ? ? x ks' ? Ix Ax]; subst. rewrite <- Cf in H, Q.
        exact (proj2 (page_saved _) [] ch l SA x ks' k o mm s Ix Ax H ks q ltac:(assumption) Q).
      + assert (exists e n t, (forall p y, at_names t p y -> exists x, at_names (NDir nm ch src) p x /\ same_node x y) /\ static_in_order e /\ create_from (m_host m) [] false (cx_dir c ++ [n]) n e = Ok t /\ ent_at e q (EFile o)) as (e & n & t & U3 & [[le ES] _] & CT & P').
        { apply OV1 in P. destruct P as [P|P]; [exists statics, (lit "static"), t1|exists temps, (lit "temp"), t2]; (split; [intros p y Y; apply U2; auto|auto]). }
        destruct (static_all _ _ _ _ _ CT _ _ P') as (k & s & A).
        assert (NQ : q <> []) by (intros ->; rewrite ES in P'; inversion P').
        pose proof (static_only _ _ _ _ _ CT _ _ A) as (_ & _ & _ & R).
        assert (exists ks, q = ks ++ [k]) as [ks Eq].
        { destruct R as [[|y r] R]; injection R as _ R; [contradiction|]. now exists r. }
        destruct (U3 _ _ A) as (x & A' & Sm). destruct x as [k' b' p' m' s'|]; [|contradiction]. destruct Sm as (-> & -> & -> & -> & ->).
        specialize (H ks k Eq). clear Eq. inversion A' as [|? ? ? x ks' ? Ix Ax]; subst. rewrite <- Cf in H.
        exact (proj2 (static_saved _) [] ch l SA x ks' k o s Ix Ax H). }
  assert (NC : no_clash l).
  { intros q o I J. apply PA in I. apply (NO2 q o I).
    destruct (proj2 (saved_dirs _) [] ch l SA q J) as [->|(x & ks & r & Ix & N & ->)].
    - left. left. exists l0. rewrite EC. constructor.
    - cbn [app]. destruct N as [(nm' & ch' & s & A & ->)|(k & o' & pc & mm & s & stem & dirs & A & E & H & St & ->)].
      + assert (A' : at_names (NDir nm ch src) (n_name x :: ks) (NDir nm' ch' s)) by now constructor.
        destruct (U1 _ _ A') as (y & [Y|(e & n & t & Ee & CT & Y)] & Sm); destruct y; try contradiction.
        * left. left. rewrite EC. now apply (built_dirs _ _ _ _ BF _ _ _ _ Y).
        * right. apply OV2. pose proof (static_only _ _ _ _ _ CT _ _ Y) as Q. destruct Ee as [-> | ->]; [now left|now right].
      + left. right. assert (A' : at_names (NDir nm ch src) (dirs ++ [k]) (NFile k o' pc mm s)) by (rewrite <- E; now constructor). rewrite Cf in H, St.
        destruct (FT _ _ _ _ _ _ A') as [[-> P]|[-> P]]; [|destruct St as (_ & _ & X & _); contradiction].
        exists dirs, k, o', stem. split; [exact P|]. now repeat split; try apply St. }
  (* the disk *)
  set (tp := cx_dir c ++ [lit "temp"]) in *. set (mp := cx_dir c ++ [lit "metadata.json"]) in *.
  set (dt := remove_temp None tp d1).
  assert (Dt : ent_distinct dt) by (apply remove_temp_distinct; [exact D|discriminate]).
  assert (Wt : forall q, ~ above tp q -> what q dt = what q d1) by (intros q; apply remove_temp_outside).
  assert (Tt : what tp dt = KNone).
  { unfold dt, remove_temp, rmtree. destruct tp as [|k0 tp0] eqn:Etp; [unfold tp in Etp; destruct (cx_dir c); discriminate Etp|].
    destruct LT as [LT|[LT _]]; [|rewrite LT; unfold what; now rewrite LT]. destruct SO2 as [[lt ->] _]. rewrite LT. unfold what. pose proof (remove_none (k0 :: tp0) [] d1 ltac:(discriminate) D) as RN. rewrite app_nil_r in RN. now rewrite RN. }
  assert (NT : lookup tp d1 = None -> dt = d1) by (intros E; unfold dt, remove_temp, rmtree; destruct tp; [reflexivity|now rewrite E]).
  destruct (save_succeeds st (output_dir c) dt (NDir nm ch src) ch l O eq_refl SA NC Dt NE) as [ds S].
  { destruct NTO as [NTO|NTO]; [now rewrite (NT NTO)|]. rewrite Wt; [exact PD|]. intros [r E]. apply NTO. destruct (parent_above (output_dir c)) as [r' E']. exists (r ++ r'). now rewrite E', E, app_assoc. }
  { destruct NTO as [NTO|NTO]; [now rewrite (NT NTO)|]. now rewrite Wt. }
  pose proof (save_outside None st (output_dir c) dt (NDir nm ch src) O T) as Ws. rewrite S in Ws. cbn [fst] in Ws.
  assert (FD : forall q o, what (output_dir c ++ q) ds = KFile o <-> file_at (m_host m) (st_plugins (cx_stuart c)) (page_vars (m_osenv m) (cx_mode c)) content (st_config (cx_stuart c)) both q o).
  { intros q o. pose proof (save_exactly _ _ _ _ _ _ _ _ O eq_refl SA Dt S q) as (X & _). rewrite X, <- PA. split; [apply last_in|].
    intros I. destruct (last_exists _ _ _ I) as [o' LF]. assert (o' = o); [|now subst]. apply (NO1 q); apply PA; [now apply last_in|exact I]. }
  assert (Ts : ~ above (output_dir c) tp -> what tp ds = KNone) by (intros N; rewrite Ws; assumption).
  assert (CB : forall d2, (if cf_meta (st_config st) then save_metadata (m_ser m) None st mp ds else (ds, Ok tt)) = (d2, Ok tt) ->
    forall d3, ran (m_script m) (cx_post c) d2 d3 -> exists c', cli_build m no_faults c d = (c', d3, COk)).
  { intros d2 E d3 R. apply run_scripts_ran in Rn, R. exists (set_stuart st c). unfold cli_build. rewrite Rn, BM. cbn [fl_temp fl_save fl_meta no_faults]. fold tp dt. fold (output_dir c). rewrite S. fold mp. rewrite E, R. reflexivity. }
  destruct (cf_meta (st_config (cx_stuart c))) eqn:CM.
  - destruct (CMH eq_refl) as [WM NOM]. clear CMH.
    destruct (metadata_described st (NDir nm ch src)) as (_ & vs & _ & _ & MV); [now rewrite Cf|exact O|reflexivity|now apply DE|].
    set (v := VObj _) in MV.
    assert (Wm : what mp ds = what mp d1).
    { rewrite Ws by exact NOM. apply Wt. intros [r E]. unfold mp, tp in E. rewrite <- app_assoc in E. apply app_inv_head in E. discriminate E. }
    assert (Wd : what (cx_dir c) ds = KDir).
    { rewrite Ws, Wt.
      - unfold what. rewrite lookup_app in LC. destruct (lookup (cx_dir c) d1) as [[]|]; try discriminate LC. reflexivity.
      - intros [r E]. unfold tp in E. rewrite <- app_assoc in E. rewrite <- (app_nil_r (cx_dir c)) in E at 1. apply app_inv_head in E. discriminate E.
      - intros [r E]. apply NOM. exists (r ++ [lit "metadata.json"]). unfold mp. now rewrite app_assoc, <- E. }
    assert (WR : exists d2, run_op (OWrite mp (m_ser m v)) ds = Some d2).
    { cbn [run_op]. unfold write_file. rewrite <- Wm in WM. unfold what in WM. destruct (lookup mp ds) as [[b'|l'|]|] eqn:L; try (destruct WM as [WM|[? WM]]; discriminate WM); [eexists; reflexivity|].
      replace (parent mp) with (cx_dir c) by (unfold parent, mp; now rewrite removelast_last). rewrite (what_edir _ _ Wd). eexists. reflexivity. }
    destruct WR as [d2 WR]. destruct (write_effect _ _ _ _ WR) as [_ WE]. exists d2.
    assert (PE : forall q, q <> mp -> what q d2 = what q ds).
    { intros q N. rewrite WE. destruct (path_eq mp q) as [E|E]; [|reflexivity]. now subst q. }
    split; [|split; [|split]].
    + intros q o. rewrite PE; [apply FD|]. intros E. apply NOM. now exists q.
    + intros N. rewrite PE; [now apply Ts|]. unfold tp, mp. intros E. apply app_inv_head in E. discriminate E.
    + intros _. exists v. rewrite WE. now destruct (path_eq mp mp).
    + intros d3. apply CB. rewrite Cf, CM. unfold save_metadata. rewrite MV. cbn [run_ops]. now rewrite WR.
  - exists ds. split; [exact FD|]. split; [exact Ts|]. split; [discriminate|]. intros d3. apply CB. now rewrite Cf, CM.
Qed.

Lemma project_built m c d content statics : cx_pre c = [] -> cx_post c = [] -> cf_meta (st_config (cx_stuart c)) = false ->
  lookup (cx_dir c ++ [lit "content"]) d = Some content ->
  lookup (cx_dir c ++ [lit "static"]) d = Some statics \/ (lookup (cx_dir c ++ [lit "static"]) d = None /\ statics = EDir []) ->
  lookup (cx_dir c ++ [lit "temp"]) d = None ->
  ent_distinct d -> inward_project c d ->
  site_in_order (m_host m) (st_plugins (cx_stuart c)) (page_vars (m_osenv m) (cx_mode c)) content -> static_in_order statics ->
  no_conflict (m_host m) (st_plugins (cx_stuart c)) (page_vars (m_osenv m) (cx_mode c)) content statics ->
  no_overlap (m_host m) (st_plugins (cx_stuart c)) (page_vars (m_osenv m) (cx_mode c)) content (st_config (cx_stuart c)) statics ->
  output_dir c <> [] -> what (parent (output_dir c)) d = KDir -> what (output_dir c) d = KNone \/ what (output_dir c) d = KDir ->
  exists c' d', cli_build m no_faults c d = (c', d', COk) /\ forall q o,
    what (output_dir c ++ q) d' = KFile o <->
    file_at (m_host m) (st_plugins (cx_stuart c)) (page_vars (m_osenv m) (cx_mode c)) content (st_config (cx_stuart c)) statics q o.
Proof.
  intros EP EQ EM LC LS LT D IP Or SO NC NO NE PD W.
  destruct (project_scripted m c d d content statics (EDir []) statics) as (d2 & F & _ & _ & B); try assumption.
  - rewrite EP. constructor.
  - now right.
  - split; [now exists []|]. intros ks A. inversion A; contradiction.
  - intros ks x y A B. destruct ks as [|k ks]; [|inversion B; contradiction]. inversion B; subst. destruct SO as [[l ->] _]. inversion A; subst. now split; [exists l|exists []].
  - destruct SO as [[l ->] _]. split.
    + intros ks b. split; [now left|]. intros [A|A]; [exact A|]. inversion A; contradiction.
    + intros ks. split; [now left|]. intros [A|[l' A]]; [exact A|]. inversion A; subst; [|contradiction]. exists l. constructor.
  - now left.
  - rewrite EM. discriminate.
  - destruct (B d2) as [c' E]; [rewrite EQ; constructor|]. exists c', d2. now split.
Qed.
