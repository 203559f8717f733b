(** PropCommand.v -- properties C90 and C93 for whole runs of [stuart build]. *)

From Coq Require Import String List NArith ZArith Bool.
From Verif Require Import Text Utf8 Json Base Syntax Parse Tree Interp Build Disk Cli Load Report Main.
From Verif Require Import SpecScope SpecTree SpecDisk SpecProject SpecSite SpecCommand SpecExact SpecLoad SpecMain SpecMeta.
From Verif Require Import Utf8Facts MainFacts PropSite PropExact CommandFacts.
Import ListNotations.

(** ** C90 *)
(** With scripts, a temporary directory and metadata. *)
Theorem C90_scripted : forall m c d d1 content, ran (m_script m) (cx_pre c) d d1 -> (forall x, exists y, ran (m_script m) (cx_post c) x y) ->
  lookup (cx_dir c ++ [lit "content"]) d1 = Some content ->
  plain_site (m_host m) (st_plugins (cx_stuart c)) (m_osenv m) (cx_mode c) content ->
  prepared (m_host m) (st_plugins (cx_stuart c)) (page_vars (m_osenv m) (cx_mode c)) (st_config (cx_stuart c)) (cx_dir c) (output_dir c) content d1 ->
  (snd (cli_build m no_faults c d) = COk <-> site_in_order (m_host m) (st_plugins (cx_stuart c)) (page_vars (m_osenv m) (cx_mode c)) content).
Proof. exact scripted_exactly. Qed.
Print Assumptions C90_scripted.
(** [stuart build] exits with 0 if, and only if, there is a manifest, its plugins can be loaded and the site they belong to is in order;
    of the rest of the project it is asked that it is not in the way. *)
Theorem C90_command : forall w lv manifest output d dir name out, untroubled w -> meant (w_cwd w) manifest (dir ++ [name]) -> meant dir output out ->
  (forall r deps d0 ps, manifest_says w (dir ++ [name]) d r deps ->
     loads_all (lo_js (w_loader w)) (load_from_source (w_loader w) (w_load_faults w) dir) deps d d0 ps ->
     what (dir ++ [lit "scripts"]) d0 = KNone /\ forall content, lookup (dir ++ [lit "content"]) d0 = Some content ->
       plain_site (w_host w) ps (w_osenv w) (lit "production") content /\
       prepared (w_host w) ps (page_vars (w_osenv w) (lit "production")) (to_config r) dir out content d0) ->
  ((exists d' items, main w lv (CmdBuild manifest output) d = (d', Exit 0, items)) <->
   exists r deps d0 ps content, manifest_says w (dir ++ [name]) d r deps /\
     loads_all (lo_js (w_loader w)) (load_from_source (w_loader w) (w_load_faults w) dir) deps d d0 ps /\
     lookup (dir ++ [lit "content"]) d0 = Some content /\
     site_in_order (w_host w) ps (page_vars (w_osenv w) (lit "production")) content).
Proof. exact command_exactly. Qed.
Print Assumptions C90_command.

(** ** C93 *)
Theorem C93_command : forall w lv manifest output d dir name d' items, meant (w_cwd w) manifest (dir ++ [name]) ->
  main w lv (CmdBuild manifest output) d = (d', Exit 0, items) ->
  exists r deps d0 ps, manifest_says w (dir ++ [name]) d r deps /\
    loads_all (lo_js (w_loader w)) (load_from_source (w_loader w) (w_load_faults w) dir) deps d d0 ps /\
    (cf_meta (to_config r) = true -> flat_map pl_parsers ps = [] -> what (dir ++ [lit "scripts"]) d0 = KNone ->
     exists content others vs, lookup (dir ++ [lit "content"]) d0 = Some content /\
       (forall e, In e others <-> lookup (dir ++ [lit "static"]) d0 = Some e \/ lookup (dir ++ [lit "temp"]) d0 = Some e) /\
       tells (w_host w) content others vs /\
       what (dir ++ [lit "metadata.json"]) d' = KFile (w_ser w (VObj
         [(lit "name", VStr (rc_name r)); (lit "author", match rc_author r with Some a => VStr a | None => VNull end); (lit "data", VArr vs)]))).
Proof. exact command_metadata. Qed.
Print Assumptions C93_command.

(** The site of C61 with the static files of C62, part of them left in the temporary directory; metadata are saved. *)
Example C90_raw : raw_config := RawConfig (lit "n") None (Some (Settings None None (Some true))).
Example C90_world : world := World C61_host (fun _ => [123%N]) [] (fun _ _ d => (d, ScriptOk)) (fun t => match t with [] => TomlOk C90_raw [] | _ => TomlErr None [] end)
  no_loader (fun _ _ => None) (fun _ => no_faults) (fun _ => None) (EDir []) NewFacts.no_user None None [].
Example C90_disk (b : bytes) : ent := EDir [(lit "p", EDir [(lit "stuart.toml", EFile b); (lit "content", C61_content); (lit "static", C62_styles); (lit "temp", C62_pictures)])].
Example C90_prepared b : prepared C61_host [] (page_vars [] (lit "production")) (to_config C90_raw) [lit "p"] [lit "p"; lit "dist"] C61_content (C90_disk b).
Proof.
  split; [repeat first [apply ed_file|apply ed_dir|constructor]; vm_compute; intuition discriminate|].
  split; [intros e L; vm_compute in L; injection L as <-; repeat first [constructor|discriminate|now vm_compute; intuition discriminate]|].
  split; [intros e L; vm_compute in L; injection L as <-; repeat first [constructor|discriminate|now vm_compute; intuition discriminate]|].
  split; [intros e L; vm_compute in L; injection L as <-; repeat first [constructor|discriminate|now vm_compute; intuition discriminate]|].
  split.
  - exists C62_styles, C62_pictures, C62_statics. split; [now left|]. split; [now left|].
    split; [split; [eexists; reflexivity|]; intros ks A; apply C62_style_entries in A; intuition discriminate|].
    split; [split; [eexists; reflexivity|]; intros ks A; apply C62_picture_entries in A; intuition discriminate|].
    split; [apply C62_both|]. split; [apply C62_both|]. split; [exact C62_no_conflict|exact (C62_no_overlap true)].
  - split; [discriminate|]. split; [reflexivity|]. split; [now left|]. split; [right; intros [r E]; discriminate E|]. intros _. split; [now left|]. intros [r E]. discriminate E.
Qed.
Example C90_command_case b : (exists d' items, main C90_world Normal (CmdBuild (lit "p/stuart.toml") (lit "dist")) (C90_disk b) = (d', Exit 0, items)) <->
  exists r deps d0 ps content, manifest_says C90_world [lit "p"; lit "stuart.toml"] (C90_disk b) r deps /\
    loads_all (lo_js no_loader) (load_from_source no_loader (fun _ _ => None) [lit "p"]) deps (C90_disk b) d0 ps /\
    lookup [lit "p"; lit "content"] d0 = Some content /\ site_in_order C61_host ps (page_vars [] (lit "production")) content.
Proof.
  apply (C90_command C90_world Normal (lit "p/stuart.toml") (lit "dist") (C90_disk b) [lit "p"] (lit "stuart.toml") [lit "p"; lit "dist"]).
  - repeat split; reflexivity.
  - now apply join_meant.
  - now apply join_meant.
  - intros r deps d0 ps (b' & t & W & U & T) L. cbn [C90_world w_toml] in T. destruct t; [|discriminate]. injection T as <- <-. inversion L; subst.
    split; [reflexivity|]. intros content LC. injection LC as <-. split; [exact C90_plain|apply C90_prepared].
Qed.
(** With the manifest, it is built; with another, it is not. *)
Example C90_command_built : exists d' items, main C90_world Normal (CmdBuild (lit "p/stuart.toml") (lit "dist")) (C90_disk []) = (d', Exit 0, items).
Proof.
  apply C90_command_case. exists C90_raw, [], (C90_disk []), [], C61_content. split; [exists [], []; repeat split; constructor|]. split; [constructor|]. split; [reflexivity|exact C62_in_order].
Qed.
Example C90_command_other : forall d' items, main C90_world Normal (CmdBuild (lit "p/stuart.toml") (lit "dist")) (C90_disk [97%N]) <> (d', Exit 0, items).
Proof.
  intros d' items E. assert (X : exists d' items, main C90_world Normal (CmdBuild (lit "p/stuart.toml") (lit "dist")) (C90_disk [97%N]) = (d', Exit 0, items)) by (now exists d', items).
  apply C90_command_case in X. destruct X as (r & deps & d0 & ps & content & (b & t & W & U & T) & _). vm_compute in W. injection W as <-. apply decoding in U. vm_compute in U. injection U as <-. discriminate T.
Qed.
