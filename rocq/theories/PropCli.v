(** PropCli.v -- properties C48, C49, C54 and C55: the commands of the program. *)

From Coq Require Import String List NArith ZArith Bool Lia.
From Verif Require Import Text Utf8 Json Base Syntax Parse Tree Interp Build Disk Cli SpecScope SpecTree SpecDisk SpecProject.
From Verif Require Import ProgramFacts.
Import ListNotations.

(** ** C48 *)
Theorem C48_settings : forall r, let c := to_config r in
  cf_name c = rc_name r /\ cf_author c = rc_author r /\
  (forall s b, rc_settings r = Some s -> se_strip s = Some b -> cf_strip c = b) /\
  (forall s b, rc_settings r = Some s -> se_data s = Some b -> cf_data c = b) /\
  (forall s b, rc_settings r = Some s -> se_meta s = Some b -> cf_meta c = b) /\
  ((forall s b, rc_settings r = Some s -> se_strip s <> Some b) -> cf_strip c = true) /\
  ((forall s b, rc_settings r = Some s -> se_data s <> Some b) -> cf_data c = false) /\
  ((forall s b, rc_settings r = Some s -> se_meta s <> Some b) -> cf_meta c = false).
Proof. exact config_settings. Qed.
Print Assumptions C48_settings.
Example C48_case : let c := to_config (RawConfig (lit "n") (Some (lit "a")) (Some (Settings (Some false) None (Some true)))) in
  cf_strip c = false /\ cf_data c = false /\ cf_meta c = true /\ cf_author c = Some (lit "a").
Proof. repeat split. Qed.

(** ** C49 *)
(** The scripts are the files of the [scripts] directory with the right names, in its order. *)
Theorem C49_found : forall r ps dir output mode d l, lookup (dir ++ [lit "scripts"]) d = Some (EDir l) ->
  listed pre_name l (cx_pre (init r ps dir output mode d)) /\ listed post_name l (cx_post (init r ps dir output mode d)).
Proof. exact init_scripts. Qed.
Print Assumptions C49_found.
Theorem C49_none : forall r ps dir output mode d, (forall l, lookup (dir ++ [lit "scripts"]) d <> Some (EDir l)) ->
  cx_pre (init r ps dir output mode d) = [] /\ cx_post (init r ps dir output mode d) = [].
Proof. exact init_no_scripts. Qed.
Print Assumptions C49_none.
(** A failing pre-build script: nothing but the scripts so far has touched the disk. *)
Theorem C49_pre : forall m f c d n r d1, stops (m_script m) (cx_pre c) d n r d1 ->
  cli_build m f c d = (c, d1, CErr (CE_Script n r)).
Proof. exact pre_stops. Qed.
Print Assumptions C49_pre.
(** Script failures reported by a build come from the first failing script, before anything else or
    after everything has been saved. *)
Theorem C49_failures : forall m f c d c' d' n r, fl_temp f = None -> cli_build m f c d = (c', d', CErr (CE_Script n r)) ->
  stops (m_script m) (cx_pre c) d n r d' \/
  exists d1 d4, ran (m_script m) (cx_pre c) d d1 /\ saved_site m c' d1 d4 /\ stops (m_script m) (cx_post c) d4 n r d'.
Proof. exact script_errors. Qed.
Print Assumptions C49_failures.
(** A build succeeds only if all scripts do, and then runs them all, the last ones on the saved site. *)
Theorem C49_success : forall m f c d c' d', fl_temp f = None -> cli_build m f c d = (c', d', COk) ->
  exists d1 d4, ran (m_script m) (cx_pre c) d d1 /\ saved_site m c' d1 d4 /\ ran (m_script m) (cx_post c) d4 d'.
Proof. exact success_scripts. Qed.
Print Assumptions C49_success.
(** In the examples every script appends its name to a log; those in [bad] fail with code 3. *)
Example logging (bad : list string) : machine :=
  Machine (Host (fun _ => false) (fun t => t) None (fun _ => Some VNull)) (fun _ => []) []
    (fun n d => (match lookup [lit "log"] d with
                 | Some (EFile b) => update [lit "log"] (Some (EFile (b ++ enc n ++ enc (lit ";")))) d
                 | _ => d
                 end, if existsb (fun b => text_eqb (lit b) n) bad then ScriptFailure 3 else ScriptOk)).
Example C49_scripts : list (text * ent) :=
  [(lit "onPostBuild.sh", EFile []); (lit "readme", EFile []); (lit "onPreBuild.sh", EFile []); (lit "onPreBuild", EFile []); (lit "onPostBuild", EDir [])].
Example C49_disk : ent :=
  EDir [(lit "log", EFile []);
        (lit "p", EDir [(lit "stuart.toml", EFile []); (lit "scripts", EDir C49_scripts);
                        (lit "content", EDir [(lit "root.html", EFile (enc (lit "r")));
                                              (lit "index.html", EFile (enc (lit "{{ begin(""b"") }}x{{ end(""b"") }}")))])])].
Example C49_project : context := init (RawConfig (lit "n") None None) [] [lit "p"] (lit "dist") (lit "production") C49_disk.
Example C49_found_case : cx_pre C49_project = [lit "onPreBuild.sh"; lit "onPreBuild"] /\ cx_post C49_project = [lit "onPostBuild.sh"].
Proof. split; vm_compute; reflexivity. Qed.
Example C49_pre_case : stops (m_script (logging ["onPreBuild"%string])) (cx_pre C49_project) C49_disk (lit "onPreBuild") (ScriptFailure 3)
  (update [lit "log"] (Some (EFile (enc (lit "onPreBuild.sh;onPreBuild;")))) C49_disk).
Proof.
  exists [lit "onPreBuild.sh"], [], (update [lit "log"] (Some (EFile (enc (lit "onPreBuild.sh;")))) C49_disk).
  split; [vm_compute; reflexivity|]. split; [|split; [vm_compute; reflexivity|discriminate]].
  apply ra_cons with (update [lit "log"] (Some (EFile (enc (lit "onPreBuild.sh;")))) C49_disk); [vm_compute; reflexivity|constructor].
Qed.
Example C49_post_case : exists c' d', cli_build (logging ["onPostBuild.sh"%string]) no_faults C49_project C49_disk = (c', d', CErr (CE_Script (lit "onPostBuild.sh") (ScriptFailure 3))) /\
  what [lit "p"; lit "dist"; lit "index.html"] d' = KFile (enc (lit "r")) /\ what [lit "log"] d' = KFile (enc (lit "onPreBuild.sh;onPreBuild;onPostBuild.sh;")).
Proof. do 2 eexists. split; [vm_compute; reflexivity|]. split; vm_compute; reflexivity. Qed.
Example C49_success_case : exists c' d', cli_build (logging []) no_faults C49_project C49_disk = (c', d', COk) /\
  what [lit "log"] d' = KFile (enc (lit "onPreBuild.sh;onPreBuild;onPostBuild.sh;")).
Proof. do 2 eexists. split; vm_compute; reflexivity. Qed.

(** ** C54 *)
(** The plugins of all dependencies are loaded, one dependency after the other, each from the first of
    its sources that can be; or the program stops at the first dependency without such a source. *)
Theorem C54_loaded : forall js ld deps d d' ps, load_plugins js ld deps d = (d', LOk ps) <-> loads_all js ld deps d d' ps.
Proof. exact plugins_loaded. Qed.
Print Assumptions C54_loaded.
Theorem C54_stopped : forall js ld deps x, (forall ps, x <> LOk ps) -> forall d d', load_plugins js ld deps d = (d', x) <->
  exists a dep b d1 ps, deps = a ++ dep :: b /\ loads_all js ld a d d1 ps /\ loads_from js ld dep d1 d' x.
Proof. exact plugins_stopped. Qed.
Print Assumptions C54_stopped.
(** Every dependency either loads or fails. *)
Theorem C54_total : forall js ld dep d, exists d' x, loads_from js ld dep d d' x.
Proof. exact load_total. Qed.
Print Assumptions C54_total.
Example C54_oracle (name src : text) (d : ent) : ent * load_res :=
  if text_eqb src (lit "missing.so") then (EDir [(lit "tried", d)], LErr) else (d, LOk [Plugin src [] []]).
Example C54_case : exists ps, load_plugins false C54_oracle [(lit "a", lit "a.dll;a.js;missing.so;b.so;c.so"); (lit "b", lit "d.so")] (EDir [])
  = (EDir [(lit "tried", EDir [])], LOk ps) /\ map pl_name ps = [lit "b.so"; lit "d.so"].
Proof. eexists. split; vm_compute; reflexivity. Qed.
Example C54_failing : load_plugins false C54_oracle [(lit "a", lit "b.so"); (lit "b", lit "a.dll;missing.so"); (lit "c", lit "missing.so")] (EDir [])
  = (EDir [(lit "tried", EDir [])], LErr).
Proof. vm_compute. reflexivity. Qed.

(** ** C55 *)
(** [fl] are the faults of the three removals. *)
Theorem C55_outside : forall fl dir d, lookup (dir ++ [lit "stuart.toml"]) d = None -> clean fl dir d = (d, false).
Proof. exact clean_outside. Qed.
Print Assumptions C55_outside.
(** Whether it succeeds or not, everything else stays. *)
Theorem C55_only : forall fl dir d q, ~ generated dir q -> what q (fst (clean fl dir d)) = what q d.
Proof. exact clean_same. Qed.
Print Assumptions C55_only.
Theorem C55_all : forall fl dir d d', ent_distinct d -> clean fl dir d = (d', true) -> forall q, generated dir q -> what q d' = KNone.
Proof. exact clean_gone. Qed.
Print Assumptions C55_all.
Theorem C55_succeeds : forall fl dir d, (forall i, fl i = None) -> what (dir ++ [lit "stuart.toml"]) d <> KNone ->
  (what (dir ++ [lit "dist"]) d = KNone \/ what (dir ++ [lit "dist"]) d = KDir) ->
  (what (dir ++ [lit "_build"]) d = KNone \/ what (dir ++ [lit "_build"]) d = KDir) ->
  (what (dir ++ [lit "metadata.json"]) d = KNone \/ exists b, what (dir ++ [lit "metadata.json"]) d = KFile b) ->
  exists d', clean fl dir d = (d', true).
Proof. exact clean_works. Qed.
Print Assumptions C55_succeeds.
Example C55_disk : ent :=
  EDir [(lit "p", EDir [(lit "stuart.toml", EFile []); (lit "dist", EDir [(lit "a", EFile [])]); (lit "metadata.json", EFile []);
                        (lit "content", EDir [(lit "dist", EDir [])])])].
Example C55_case : ent_distinct C55_disk /\ clean (fun _ => None) [lit "p"] C55_disk =
  (EDir [(lit "p", EDir [(lit "stuart.toml", EFile []); (lit "content", EDir [(lit "dist", EDir [])])])], true).
Proof.
  split; [|vm_compute; reflexivity].
  repeat (constructor; cbn; try (repeat constructor; cbn; intuition discriminate)).
Qed.
