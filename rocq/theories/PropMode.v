(** PropMode.v -- property C94: what [stuart dev] shows is what [stuart build] publishes; C86 for whole projects. *)

From Coq Require Import String List NArith ZArith Bool.
From Verif Require Import Text Utf8 Json Base Syntax Parse Tree Interp Build Disk Cli Load Dev New Report Main Server.
From Verif Require Import SpecScope SpecTree SpecDisk SpecProject SpecDev SpecMain SpecServer SpecAlike SpecMode.
From Verif Require Import Utf8Facts NewFacts DevFacts MoveFacts MainFacts ModeFacts PropMove.
Import ListNotations.

(** ** C86 *)
(** A build of a project, with its scripts: the disk, the result and the messages are the same when the environment and the mode agree about the variables
    that the contents mention. *)
Theorem C86_project : forall m m' f c c' d, m_host m' = m_host m -> m_ser m' = m_ser m -> (forall n x, m_script m' n x = m_script m n x) ->
  cx_dir c' = cx_dir c -> cx_output c' = cx_output c -> cx_pre c' = cx_pre c -> cx_post c' = cx_post c ->
  st_config (cx_stuart c') = st_config (cx_stuart c) -> st_plugins (cx_stuart c') = st_plugins (cx_stuart c) ->
  (forall d1 content, ran (m_script m) (cx_pre c) d d1 -> lookup (cx_dir c ++ [lit "content"]) d1 = Some content ->
     steady eq (Some (mentioned (m_host m) (st_plugins (cx_stuart c)) content)) (st_plugins (cx_stuart c)) /\
     agree (Some (mentioned (m_host m) (st_plugins (cx_stuart c)) content)) (m_osenv m ++ [(lit "STUART_ENV", cx_mode c)]) (m_osenv m' ++ [(lit "STUART_ENV", cx_mode c')])) ->
  snd (fst (cli_build m' f c' d)) = snd (fst (cli_build m f c d)) /\ snd (cli_build m' f c' d) = snd (cli_build m f c d) /\
  build_says m' f c' d = build_says m f c d.
Proof. exact project_env. Qed.
Print Assumptions C86_project.

(** ** C94 *)
(** [stuart dev] when it starts. *)
Theorem C94_first_partial : forall w lv manifest output d dir name r deps d0 ps, meant (w_cwd w) manifest (dir ++ [name]) ->
  manifest_says w (dir ++ [name]) d r deps ->
  loads_all (lo_js (w_loader w)) (load_from_source (w_loader w) (w_load_faults w) dir) deps d d0 ps ->
  modeless w (dir ++ [name]) output -> unaware_project w (dir ++ [name]) dir output ps d0 ->
  let x := dev_command w lv manifest output [] d in
  exists before loading l e, shown_of x = before ++ line lv (lit "Started") ++ l /\ main w lv (CmdBuild manifest output) d = (disk_of x, e, loading ++ l) /\
    (deps = [] -> before = [] /\ loading = []) /\ ended x = (if exits e then None else Some e) /\ (e = Exit 1 <-> reported l = true).
Proof. exact dev_as_build. Qed.
Print Assumptions C94_first_partial.
(** [stuart dev] after any events, when a file has been changed: the disk is the one that [stuart build] would leave, the same messages are written, an error is
    reported if that command would fail, and browsers are told to reload if it would succeed. *)
Theorem C94_preview_partial : forall w lv manifest output evs d s g p dir name r deps d0 ps, meant (w_cwd w) manifest (dir ++ [name]) ->
  manifest_says w (dir ++ [name]) d r deps ->
  loads_all (lo_js (w_loader w)) (load_from_source (w_loader w) (w_load_faults w) dir) deps d d0 ps ->
  modeless w (dir ++ [name]) output ->
  dev_command w lv manifest output evs d = Waiting s ->
  manifest_says w (dir ++ [name]) (g (ss_disk s)) r deps ->
  loads_all (lo_js (w_loader w)) (load_from_source (w_loader w) (w_load_faults w) dir) deps (g (ss_disk s)) (g (ss_disk s)) ps ->
  lookup (dir ++ [lit "scripts"]) (g (ss_disk s)) = lookup (dir ++ [lit "scripts"]) d0 -> ~ passed p ->
  unaware_project w (dir ++ [name]) dir output ps (g (ss_disk s)) ->
  let x := dev_command w lv manifest output (evs ++ [Event g (Some (dir ++ p))]) d in
  exists loading l e, shown_of x = ss_shown s ++ Blank :: line lv (lit "Detected") ++ l /\
    main (later (ss_builds s) w) lv (CmdBuild manifest output) (g (ss_disk s)) = (disk_of x, e, loading ++ l) /\
    (deps = [] -> loading = []) /\ ended x = (if exits e then None else Some e) /\ (e = Exit 1 <-> reported l = true) /\
    (ended x = None -> reloads_of x = (if reported l then 0 else 1) + ss_reloads s).
Proof. exact preview. Qed.
Print Assumptions C94_preview_partial.

(** A page that prints [$env.SITE], put in place of one that prints an undefined variable; a script puts a file into the temporary directory,
    and what the failed build left there is removed. *)
Example C94_world : world := World C85_host (fun _ => []) C86_env1 (fun _ n d => (update [lit "temp"] (Some (EDir [(n, EFile [1%N])])) d, ScriptOk)) (fun _ => TomlOk (RawConfig (lit "s") None None) []) no_loader (fun _ _ => None)
  (fun _ => no_faults) (fun _ => None) (EDir []) no_user None None [].
Example C94_disk (c : ent) : ent := EDir [(lit "stuart.toml", EFile []); (lit "scripts", EDir [(lit "onPreBuild.sh", EFile [])]); (lit "content", c)].
Example C94_put (c : ent) (d : ent) : ent := update [lit "temp"] None (update [lit "content"] (Some c) d).
Example C94_unaware : unaware C85_host [] C86_content.
Proof.
  split; [intros pl []|]. intros M. apply mentions in M as (ks & body & toks & t & v & p & T & P & I & V & R). destruct T as (dirs & name & b & t0 & E & At & U & B). apply decoding in U.
  assert (F : (name = lit "root.html" \/ name = lit "index.html") /\ (b = enc (lit "[{{ insert(""m"") }}]") \/ b = enc C86_body)).
  { clear -E At. revert E. inversion At as [|? k ? ks' ? J At']; subst. destruct J as [J|[J|[]]]; injection J as <- <-.
    - inversion At'; subst. intros E. destruct dirs as [|? [|? ?]]; try discriminate. injection E as <-. split; [now left|left; reflexivity].
    - inversion At' as [|? k2 ? ks2 ? J2 At2]; subst. destruct J2 as [J2|[]]; injection J2 as <- <-. inversion At2; subst. intros E.
      destruct dirs as [|? [|? [|? ?]]]; try discriminate. injection E as _ <-. split; [now right|right; reflexivity]. }
  destruct F as [Fn Fs].
  assert (body = t0). { destruct B as [[_ B]|[X _]]; auto. apply TreeFacts.extension_spec in X. destruct Fn as [-> | ->]; discriminate X. }
  subst t0. clear B E At Fn. destruct Fs as [-> | ->]; vm_compute in U; injection U as <-; vm_compute in P; injection P as <-; cbn [In] in I;
    repeat (destruct I as [<-|I]; [cbn [t_inner] in V; inversion V; subst; vm_compute in R; now inversion R|]); destruct I.
Qed.
Example C94_run (c : ent) : server := dev_command C94_world Normal (lit "stuart.toml") (lit "dist") [Event (C94_put c) (Some [lit "content"; lit "blog"])] (C94_disk (C85_content "{{ $x }}")).
Example C94_built (c : ent) : ent * exit * list note := main C94_world Normal (CmdBuild (lit "stuart.toml") (lit "dist")) (C94_disk c).
Example C94_page : path := [lit "dist"; lit "blog"; lit "index.html"].
Example C94_case : ended (C94_run C86_content) = None /\ reloads_of (C94_run C86_content) = 1 /\ what C94_page (disk_of (C94_run C86_content)) = KFile (enc (lit "[" ++ [c_lf] ++ lit "A]")) /\
  what [lit "dist"; lit "onPreBuild.sh"] (disk_of (C94_run C86_content)) = KFile [1%N] /\ disk_of (C94_run C86_content) = fst (fst (C94_built C86_content)).
Proof.
  assert (E : exists s, dev_command C94_world Normal (lit "stuart.toml") (lit "dist") [] (C94_disk (C85_content "{{ $x }}")) = Waiting s /\
    C94_put C86_content (ss_disk s) = C94_disk C86_content /\ ss_builds s = 1 /\ reported (ss_shown s) = true /\ ss_reloads s = 0).
  { exists (match dev_command C94_world Normal (lit "stuart.toml") (lit "dist") [] (C94_disk (C85_content "{{ $x }}")) with Waiting s => s | _ => Session (init (RawConfig [] None None) [] [] [] [] (EDir [])) (EDir []) 0 [] 0 end).
    split; [vm_compute; reflexivity|]. split; [vm_compute; reflexivity|]. split; [vm_compute; reflexivity|]. split; vm_compute; reflexivity. }
  destruct E as (s & E & D & B & R & L).
  destruct (C94_preview_partial C94_world Normal (lit "stuart.toml") (lit "dist") [] (C94_disk (C85_content "{{ $x }}")) s (C94_put C86_content) [lit "content"; lit "blog"] [] (lit "stuart.toml") (RawConfig (lit "s") None None) []
    (C94_disk (C85_content "{{ $x }}")) []) as (loading & l & e & X1 & X2 & X3 & X4 & X5 & X6); try exact E; try reflexivity.
  - now apply join_meant.
  - exists [], []. repeat split; constructor.
  - constructor.
  - intros n x. reflexivity.
  - rewrite D. exists [], []. repeat split; constructor.
  - constructor.
  - rewrite D. reflexivity.
  - now apply rebuilds_kept.
  - rewrite D. intros d1 content RN K. apply CliFacts.run_scripts_ran in RN. vm_compute in RN. injection RN as <-. vm_compute in K. injection K as <-. exact C94_unaware.
  - clear X1 X3 X4 X5 X6. rewrite D, B in X2. split; [vm_compute; reflexivity|]. split; [vm_compute; reflexivity|]. split; [vm_compute; reflexivity|]. split; [vm_compute; reflexivity|].
    transitivity (fst (fst (main (later 1 C94_world) Normal (CmdBuild (lit "stuart.toml") (lit "dist")) (C94_disk C86_content)))); [|vm_compute; reflexivity].
    rewrite X2. unfold C94_run. cbn [fst app]. reflexivity.
Qed.
(** A page that prints the mode is not such a page. *)
Example C94_aware : what C94_page (disk_of (C94_run (C85_content "{{ $env.STUART_ENV }}"))) = KFile (enc (lit "[" ++ [c_lf] ++ lit "development]")) /\
  what C94_page (fst (fst (C94_built (C85_content "{{ $env.STUART_ENV }}")))) = KFile (enc (lit "[" ++ [c_lf] ++ lit "production]")).
Proof. vm_compute. split; reflexivity. Qed.
