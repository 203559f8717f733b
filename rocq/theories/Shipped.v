(** Shipped.v -- the native plugins that come with Stuart: plugins/imgopt, plugins/demo. *)

From Coq Require Import String List NArith ZArith Bool.
From Verif Require Import Text Utf8 Json Base Syntax Parse Tree Interp.
Import ListNotations.

(** [PngProcessor], plugins/imgopt/src/lib.rs:18,30-41; [o] is [oxipng::optimize_from_memory] with
    preset 3, an arbitrary function of the bytes (the message of its error or the new bytes).  The
    metadata is that of [NodeProcessor::to_json], plugins/mod.rs:53-55. *)
Definition png_processor (o : bytes -> text + bytes) (b : bytes) : node_processor :=
  {| np_process := fun _ => match o b with
                            | inl m => inl (lit "png optimization error: " ++ m)
                            | inr b' => inr (POut (Some b') None)
                            end;
     np_json := VObj [(lit "type", VStr (lit "custom"))] |}.
(** [PngParser], plugins/imgopt/src/lib.rs:17,20-28. *)
Definition png_parser (o : bytes -> text + bytes) : node_parser :=
  {| npa_exts := [lit "png"]; npa_parse := fun b _ => inr (png_processor o b) |}.
(** The plugin, plugins/imgopt/src/lib.rs:9-14. *)
Definition imgopt (o : bytes -> text + bytes) : plugin := Plugin (lit "imgopt") [] [png_parser o].

(** [DemoFunction], plugins/demo/src/function.rs:24-37; the [unwrap] at 33 panics if there is no frame. *)
Definition demo_fn : plugin_fn :=
  {| pf_name := Some (lit "demo");
     pf_exec := fun _ s => match output (enc (lit "<p>This was written by the demo function!</p>")) s with
                           | Ok s' => Ok s'
                           | _ => Panic Pn_plugin
                           end;
     pf_call := None |}.
(** [DemoParser], plugins/demo/src/function.rs:6-22. *)
Definition demo_parser : plugin_parser :=
  {| pp_name := lit "demo";
     pp_parse := fun r => match rf_pos r, rf_named r with
                          | [], [] => inr demo_fn
                          | _, _ => inl PE_AssertionError
                          end |}.
(** The plugin, plugins/demo/src/lib.rs:5-10. *)
Definition demo : plugin := Plugin (lit "demo") [demo_parser] [].
