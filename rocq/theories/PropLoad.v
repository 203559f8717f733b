(** PropLoad.v -- properties C68 and C69: where plugins come from. *)

From Coq Require Import String List NArith ZArith Bool Lia.
From Verif Require Import Text Utf8 Json Base Syntax Parse Tree Interp Build Disk Cli Load SpecScope SpecTree SpecDisk SpecProject SpecLoad.
From Verif Require Import LoadFacts.
Import ListNotations.

(** The examples: a manifest is the name of its package; a repository has its project in a directory;
    cargo makes the library of a package, hyphens replaced; libraries and scripts are what is in files
    whose first byte is 1. *)
Example put (p : path) (e : ent) (d : ent) : ent := update p (Some e) d.
Example make (p : path) (d : ent) : ent * bool :=
  match lookup (p ++ [lit "Cargo.toml"]) d with
  | Some (EFile b) =>
      match from_utf8 b with
      | Some n => (put (p ++ [lit "target"]) (EDir [(lit "release", EDir [(lit "lib" ++ crate_name n ++ lit ".so", EFile [1%N; 7%N])])]) d, true)
      | None => (d, false)
      end
  | _ => (d, false)
  end.
Example opened (p : path) (d : ent) : option plugin :=
  match lookup p d with Some (EFile (1%N :: _)) => Some (Plugin (last p []) [] []) | _ => None end.
Example world (js : bool) (named : text -> option text) : loader :=
  Loader js (fun u => text_eqb u (lit "git@host:repo"))
    (fun u p d => (put p (EDir [(lit "README", EFile []); (lit "plugin", EDir [(lit "Cargo.toml", EFile (enc (lit "foo")))])]) d, true))
    (fun p d => (d, true))
    (fun u => if text_eqb u (lit "https://host/a/bar.so") then Some [1%N; 5%N] else None)
    named make opened (fun p d => match opened p d with Some x => Ok x | None => Err [] end).
Example C68_disk : ent :=
  EDir [(lit "p", EDir [(lit "stuart.toml", EFile []); (lit "local.so", EFile [1%N]); (lit "content", EDir [(lit "bar.so", EFile [9%N])]);
                        (lit "code", EDir [(lit "Cargo.toml", EFile (enc (lit "my-plugin")))])])].

(** ** C68 *)
(** Whatever fails, loading changes nothing but the directory [_build] of the project and the local
    projects it builds; git and cargo are taken to stay in the directory they are given.
    Missing: names of dependencies that are not plain file names. *)
Theorem C68_inside_partial : forall L fs root deps d d' x, tidy L -> what root d = KDir -> (forall name src, In (name, src) deps -> plain name) ->
  (forall name s, source_of deps name s -> ~ above (join_path root s) root) ->
  load_plugins (lo_js L) (load_from_source L fs root) deps d = (d', x) ->
  forall q, ~ above (root ++ [lit "_build"]) q -> (forall name s, source_of deps name s -> ~ above (join_path root s) q) -> what q d' = what q d.
Proof. exact load_inside. Qed.
Print Assumptions C68_inside_partial.
(** A dependency may be called so that its download replaces a page of the site. *)
Theorem C68_name_refuted : exists L fs root name src d d' q b, tidy L /\ what root d = KDir /\ ~ above (join_path root src) root /\
  load_plugins (lo_js L) (load_from_source L fs root) [(name, src)] d = (d', LOk [Plugin (lit "bar.so") [] []]) /\
  ~ above (root ++ [lit "_build"]) q /\ ~ above (join_path root src) q /\ what q d = KFile [9%N] /\ what q d' = KFile b /\ b <> [9%N].
Proof.
  exists (Loader false (fun _ => false) (fun _ _ d => (d, true)) (fun _ d => (d, true)) (fun _ => Some [1%N; 5%N]) (fun t => Some t) (fun _ d => (d, true)) opened (fun p d => match opened p d with Some x => Ok x | None => Err [] end)),
    (fun _ _ => None), [lit "p"], (lit "../../content"), (lit "https://host/a/bar.so"),
    (EDir [(lit "p", EDir [(lit "_build", EDir [(lit "plugins", EDir [])]); (lit "content", EDir [(lit "bar.so", EFile [9%N])])])]). eexists. exists [lit "p"; lit "content"; lit "bar.so"]. eexists.
  split; [repeat split; intros; intros q _; reflexivity|]. split; [reflexivity|]. split; [intros [r H]; vm_compute in H; discriminate H|].
  split; [vm_compute; reflexivity|]. split; [intros [r H]; vm_compute in H; discriminate H|]. split; [intros [r H]; vm_compute in H; discriminate H|].
  split; [reflexivity|]. split; [vm_compute; reflexivity|discriminate].
Qed.
Print Assumptions C68_name_refuted.
(** What is in the project is used as it is there: git and the network are not asked. *)
Theorem C68_local : forall L L' fs fs' root name src d, same_local L L' -> local root src d ->
  load_from_source L' fs' root name src d = load_from_source L fs root name src d.
Proof. exact local_same. Qed.
Print Assumptions C68_local.
Theorem C68_file : forall L fs root name src d p b, meant root src p -> what p d = KFile b ->
  exists x, load_from_source L fs root name src d = (d, x).
Proof. exact file_source. Qed.
Print Assumptions C68_file.
(** What is downloaded is kept, and it is what is loaded. *)
Theorem C68_downloaded : forall L fs root name src seg b d d' x, plain name -> plain seg -> last_segment src seg ->
  ~ local root src d -> lo_remote L src = false -> lo_get L src = Some b ->
  load_from_source L fs root name src d = (d', x) -> x <> LErr ->
  what (store root name ++ [seg]) d' = KFile b /\ x = load_path L (store root name ++ [seg]) d'.
Proof. exact downloaded. Qed.
Print Assumptions C68_downloaded.
(** A source that loads gives one plugin, with or without JavaScript. *)
Theorem C68_one : forall L fs root name src seg d d' ps, plain name -> plain seg -> last_segment src seg -> supported (lo_js L) src ->
  load_from_source L fs root name src d = (d', LOk ps) -> exists pl, ps = [pl].
Proof. exact one_plugin. Qed.
Print Assumptions C68_one.
Example C68_tidy : tidy (world false (fun t => Some t)).
Proof.
  assert (U : forall p r e d, same_outside p d (put (p ++ r) e d)).
  { intros p r e d q N. apply DiskFacts.update_outside. intros A. apply N. apply DiskFacts.above_trans with (p ++ r); [apply DiskFacts.above_app|exact A]. }
  split; [intros u p d; cbn [world lo_clone fst]; rewrite <- (app_nil_r p) at 2; apply U|]. split; [now intros p d q _|].
  intros p d. cbn [world lo_cargo]. unfold make. destruct (lookup _ d) as [[b| |]|]; try (now intros q _). destruct (from_utf8 b); [apply U|now intros q _].
Qed.
Example C68_case : exists d' ps, load_plugins false (load_from_source (world false (fun t => Some t)) (fun _ _ => None) [lit "p"])
    [(lit "foo", lit "x.dll;git@host:repo"); (lit "bar", lit "nowhere;https://host/a/bar.so"); (lit "here", lit "local.so")] C68_disk = (d', LOk ps) /\
  map pl_name ps = [lit "libfoo.so"; lit "bar.so"; lit "local.so"] /\
  what [lit "p"; lit "_build"; lit "plugins"; lit "bar"; lit "bar.so"] d' = KFile [1%N; 5%N] /\
  what [lit "p"; lit "_build"; lit "plugins"; lit "foo"; lit "plugin"; lit "target"; lit "release"; lit "libfoo.so"] d' = KFile [1%N; 7%N] /\
  what [lit "p"; lit "content"; lit "bar.so"] d' = KFile [9%N].
Proof. do 2 eexists. split; [vm_compute; reflexivity|]. split; [vm_compute; reflexivity|]. split; [vm_compute; reflexivity|]. split; vm_compute; reflexivity. Qed.
Example C68_local_case : local [lit "p"] (lit "./local.so") C68_disk.
Proof.
  exists [lit "p"; lit "local.so"]. split; [|left; eexists; reflexivity]. exists (lit "."), [lit "local.so"]. split; [reflexivity|]. split; [repeat constructor; vm_compute; intuition discriminate|].
  right. split; [discriminate|]. apply wa_stay; [now right|]. apply (wa_down [lit "p"]); [repeat split; try discriminate; vm_compute; intuition discriminate|constructor].
Qed.
(** The download cannot be written: the plugin is not loaded. *)
Example C68_fault : exists d', load_from_source (world false (fun t => Some t)) (fun _ _ => Some (Fault 3 None)) [lit "p"] (lit "bar") (lit "https://host/a/bar.so") C68_disk = (d', LErr) /\
  what [lit "p"; lit "_build"; lit "plugins"; lit "bar"] d' = KDir.
Proof. eexists. split; vm_compute; reflexivity. Qed.

(** ** C69 *)
(** A plugin from a repository: cloned the first time, pulled after, and built from a directory of the
    repository whose manifest is for the package of that name. *)
Theorem C69_repository : forall L fs root name src d d' ps, plain name -> ~ local root src d -> lo_remote L src = true -> what root d = KDir ->
  (forall t n, lo_package L t = Some n -> ~ In c_slash n) -> (forall d2, fetches L root name src d d2 -> ent_distinct d2) ->
  load_from_source L fs root name src d = (d', LOk ps) ->
  exists d2 r n pl, fetches L root name src d d2 /\ package L (store root name ++ r) d2 name /\ lo_cargo L (store root name ++ r) d2 = (d', true) /\
    package L (store root name ++ r) d' n /\ lo_binary L (library (store root name ++ r) n) d' = Some pl /\ ps = [pl].
Proof. exact from_repository. Qed.
Print Assumptions C69_repository.
(** It is found wherever in the repository it is. *)
Theorem C69_found : forall L name e p, (forall r, package L r e name -> find_project L name p e <> None) /\
  (ent_distinct e -> forall q, find_project L name p e = Some q -> exists r, q = p ++ r /\ package L r e name).
Proof. exact (fun L name e p => conj (find_complete L name e p) (fun D => find_sound L name e D p)). Qed.
Print Assumptions C69_found.
(** A local project that cargo builds is loaded. Missing: package names with hyphens, for which it is false. *)
Theorem C69_built_partial : forall L fs root name src p d d' n pl, meant root src p -> (forall b, what p d <> KFile b) ->
  what (p ++ [lit "Cargo.toml"]) d <> KNone -> lo_cargo L p d = (d', true) -> package L p d' n -> ~ In c_slash n -> ~ In 45%N n ->
  lo_binary L (library p (crate_name n)) d' = Some pl -> load_from_source L fs root name src d = (d', LOk [pl]).
Proof. exact local_built. Qed.
Print Assumptions C69_built_partial.
Theorem C69_hyphen_refuted : exists L fs root name src p d d' n pl, meant root src p /\ (forall b, what p d <> KFile b) /\
  what (p ++ [lit "Cargo.toml"]) d <> KNone /\ lo_cargo L p d = (d', true) /\ package L p d' n /\ ~ In c_slash n /\
  lo_binary L (library p (crate_name n)) d' = Some pl /\ load_from_source L fs root name src d = (d', LErr).
Proof.
  exists (world false (fun t => Some t)), (fun _ _ => None), [lit "p"], (lit "my-plugin"), (lit "code"), [lit "p"; lit "code"], C68_disk. do 3 eexists.
  split. { exists (lit "code"), []. split; [reflexivity|]. split; [repeat constructor; vm_compute; intuition discriminate|]. right. split; [discriminate|]. apply (wa_down [lit "p"]); [repeat split; try discriminate; vm_compute; intuition discriminate|constructor]. }
  split; [discriminate|]. split; [discriminate|]. split; [vm_compute; reflexivity|]. split.
  { exists (enc (lit "my-plugin")), (lit "my-plugin"). split; [vm_compute; reflexivity|]. split; [apply Utf8Facts.decoding; vm_compute; reflexivity|reflexivity]. }
  split; [vm_compute; intuition discriminate|]. split; vm_compute; reflexivity.
Qed.
Print Assumptions C69_hyphen_refuted.
(** The only panics: cargo builds a directory whose manifest names no package, and a script whose
    loading panics (C80). *)
Theorem C69_panic_partial : forall L fs root deps d d', load_plugins (lo_js L) (load_from_source L fs root) deps d = (d', LPanic) ->
  (exists p d1, lo_cargo L p d1 = (d', true) /\ forall n, ~ package L p d' n) \/ exists p, script_crashes L p d'.
Proof. exact load_panics. Qed.
Print Assumptions C69_panic_partial.
Theorem C69_panic_refuted : exists L fs root deps d d', load_plugins (lo_js L) (load_from_source L fs root) deps d = (d', LPanic).
Proof. exists (world false (fun _ => None)), (fun _ _ => None), [lit "p"], [(lit "w", lit "code")], C68_disk. eexists. vm_compute. reflexivity. Qed.
Print Assumptions C69_panic_refuted.
Example C69_repository_case : exists d' ps d2, load_from_source (world true (fun t => Some t)) (fun _ _ => None) [lit "p"] (lit "foo") (lit "git@host:repo") C68_disk = (d', LOk ps) /\
  map pl_name ps = [lit "libfoo.so"] /\
  load_from_source (world true (fun t => Some t)) (fun _ _ => None) [lit "p"] (lit "foo") (lit "git@host:repo") d' = (d2, LOk ps) /\
  load_from_source (world true (fun t => Some t)) (fun _ _ => None) [lit "p"] (lit "other") (lit "git@host:repo") C68_disk =
    (put [lit "p"] (EDir (match lookup [lit "p"] C68_disk with Some (EDir l) => l | _ => [] end ++
      [(lit "_build", EDir [(lit "plugins", EDir [(lit "other", EDir [(lit "README", EFile []); (lit "plugin", EDir [(lit "Cargo.toml", EFile (enc (lit "foo")))])])])])])) C68_disk, LErr).
Proof. do 3 eexists. split; [vm_compute; reflexivity|]. split; [vm_compute; reflexivity|]. split; vm_compute; reflexivity. Qed.
