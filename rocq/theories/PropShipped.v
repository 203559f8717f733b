(** PropShipped.v -- property C81: the native plugins that come with Stuart. *)

From Coq Require Import String List NArith ZArith Bool.
From Verif Require Import Text Utf8 Json Base Syntax Parse Tree Interp Build Shipped SpecScope SpecTree SpecPlugins SpecShipped.
From Verif Require Import ShippedFacts.
From Verif Require Import SpecTemplate.
Import ListNotations.

(** ** C81 *)
(** With the image plugin, wherever it is in the list of plugins, a site builds exactly if it builds
    without and all its PNG files are optimised, and only their bytes differ. *)
Theorem C81_images : forall o h ps1 ps2, (forall pl, In pl (ps1 ++ ps2) -> ~ handles pl (lit "png")) ->
  forall osenv mode d c out', builds h osenv mode d c (ps1 ++ imgopt o :: ps2) out' <->
    exists out, builds h osenv mode d c (ps1 ++ ps2) out /\ optimised o (cf_meta c) out out'.
Proof. exact png_exact. Qed.
Print Assumptions C81_images.
(** If a site builds without the plugin and not with it, the error is that of optimising one of its
    PNG files. *)
Theorem C81_error : forall o h ps1 ps2, (forall pl, In pl (ps1 ++ ps2) -> ~ handles pl (lit "png")) ->
  forall osenv mode d c out, builds h osenv mode d c (ps1 ++ ps2) out ->
  (exists out', builds h osenv mode d c (ps1 ++ imgopt o :: ps2) out') \/
  exists name b p m src msg, inside (NFile name b p m src) out /\ is_png src /\ o b = inl msg /\
    snd (build h osenv mode d (stuart_new c (ps1 ++ imgopt o :: ps2))) = Err (E_Plugin (lit "png optimization error: " ++ msg)).
Proof. exact png_stopped. Qed.
Print Assumptions C81_error.
(** A site with a page, two PNG files and a file whose extension is in capitals; the optimiser drops
    the first byte and refuses an empty file. *)
Example C81_host : host := Host (fun _ => false) (fun t => t) None (fun _ => None).
Example C81_optimiser (b : bytes) : text + bytes := match b with [] => inl (lit "empty") | _ :: b' => inr b' end.
Example C81_site (b : bytes) : source_dir :=
  SourceDir [lit "s"] (lit "s") (Some (EDir
    [(lit "root.html", EFile (enc (lit "{{ insert(""a"") }}")));
     (lit "index.html", EFile (enc (lit "{{ begin(""a"") }}x{{ end(""a"") }}")));
     (lit "i", EDir [(lit "a.png", EFile [1; 2]%N); (lit "B.PNG", EFile [1; 2]%N)]);
     (lit "c.png", EFile b)])).
Example C81_out (a c : bytes) : node :=
  let s := lit "s" in
  NDir s [NFile (lit "root.html") (enc (lit "{{ insert(""a"") }}")) PNone None [s; lit "root.html"];
          NFile (lit "index.html") (enc (lit "x")) PNone None [s; lit "index.html"];
          NDir (lit "i") [NFile (lit "a.png") a PNone None [s; lit "i"; lit "a.png"];
                          NFile (lit "B.PNG") [1; 2]%N PNone None [s; lit "i"; lit "B.PNG"]] [s; lit "i"];
          NFile (lit "c.png") c PNone None [s; lit "c.png"]] [s].
Example C81_case : let h := C81_host in let c := config_default in
  builds h [] [] (C81_site [7; 8]%N) c [] (C81_out [1; 2]%N [7; 8]%N) /\
  builds h [] [] (C81_site [7; 8]%N) c [imgopt C81_optimiser] (C81_out [2]%N [8]%N) /\
  builds h [] [] (C81_site []) c [] (C81_out [1; 2]%N []) /\
  snd (build h [] [] (C81_site []) (stuart_new c [imgopt C81_optimiser])) = Err (E_Plugin (lit "png optimization error: empty")).
Proof. repeat split; vm_compute; reflexivity. Qed.

(** The demo function takes no arguments and prints its paragraph, and does nothing else. *)
Theorem C81_demo : forall r, 
  (rf_pos r = [] /\ rf_named r = [] -> exists p, pp_parse demo_parser r = inr p /\ pf_name p = Some (lit "demo") /\
     forall l c f rest secs, pf_exec p l (Scope c (f :: rest) secs) =
       Ok (Scope c (Frame (fr_name f) (fr_vars f) (fr_out f ++ enc (lit "<p>This was written by the demo function!</p>")) :: rest) secs)) /\
  (rf_pos r <> [] \/ rf_named r <> [] -> pp_parse demo_parser r = inl PE_AssertionError).
Proof. exact demo_does. Qed.
Print Assumptions C81_demo.
(** It is called by the tags [demo()] and [demo::demo()], unless a plugin loaded before answers to that name. *)
Theorem C81_demo_tag : forall ps1 ps2 name, name = lit "demo" \/ name = lit "demo::demo" ->
  Forall (fun pf => ~ answers name (fst pf) (snd pf)) (flat_table (map (fun p => (pl_name p, pl_fns p)) ps1)) ->
  exists g, denotes (map (fun p => (pl_name p, pl_fns p)) (ps1 ++ demo :: ps2)) (GCall name [] []) (TFun (FPlugin g)) /\
    forall l c f rest secs, pf_exec g l (Scope c (f :: rest) secs) =
      Ok (Scope c (Frame (fr_name f) (fr_vars f) (fr_out f ++ enc (lit "<p>This was written by the demo function!</p>")) :: rest) secs).
Proof. exact demo_tag. Qed.
Print Assumptions C81_demo_tag.
Example C81_demo_case : let h := C81_host in
  builds h [] [] (SourceDir [lit "s"] (lit "s") (Some (EDir [(lit "root.html", EFile (enc (lit "<{{ demo() }}{{ demo::demo() }}>"))); (lit "index.html", EFile [])]))) config_default [demo]
    (NDir (lit "s") [NFile (lit "root.html") (enc (lit "<{{ demo() }}{{ demo::demo() }}>")) PNone None [lit "s"; lit "root.html"];
      NFile (lit "index.html") (enc (lit "<<p>This was written by the demo function!</p><p>This was written by the demo function!</p>>")) PNone None [lit "s"; lit "index.html"]] [lit "s"]).
Proof. repeat split; vm_compute; reflexivity. Qed.
