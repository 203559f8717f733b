(** SpecRelabel.v -- templates in which sections have other names (C108). *)

From Coq Require Import String List NArith ZArith Bool.
From Verif Require Import Text Utf8 Json Base Syntax Parse Tree Build Disk SpecScope SpecRender SpecTemplate SpecBlocks SpecTree SpecDisk SpecSite.
Import ListNotations.

(** A renaming that can be undone. *)
Definition undone (rho rho' : text -> text) : Prop := (forall s, rho' (rho s) = s) /\ (forall s, rho (rho' s) = s).

(** The block with the sections renamed, in [begin], [end] and [insert]. *)
Fixpoint relabel (rho : text -> text) (b : block) : block :=
  match b with
  | BInsert s => BInsert (rho s)
  | BSection s l => BSection (rho s) (map (relabel rho) l)
  | BFor f l => BFor f (map (relabel rho) l)
  | BIf c l => BIf c (map (relabel rho) l)
  | BIfElse c l m => BIfElse c (map (relabel rho) l) (map (relabel rho) m)
  | _ => b
  end.
(** What the plugin functions it calls do does not depend on the sections. *)
Fixpoint sections_unseen (b : block) : Prop :=
  match b with
  | BPlugin p => exists beh, acts p beh /\ forall l sc secs secs', beh l sc secs = beh l sc secs'
  | BSection _ l | BFor _ l | BIf _ l => fold_right (fun b Q => sections_unseen b /\ Q) True l
  | BIfElse _ l m => fold_right (fun b Q => sections_unseen b /\ Q) True l /\ fold_right (fun b Q => sections_unseen b /\ Q) True m
  | _ => True
  end.

Section Site.
  Variable h : host.
  Variable ps : list plugin.
  Variable rho : text -> text.
  Let fns := map (fun p => (pl_name p, pl_fns p)) ps.

  Definition relabelled_text (b b' : bytes) : Prop :=
    exists t t' l, utf8_text b t /\ utf8_text b' t' /\ written (h_ext h) fns t l /\ Forall sections_unseen l /\
      written (h_ext h) fns t' (map (relabel rho) l).
  (** Two directories that differ in this way in all of their HTML files. *)
  Inductive relabelled : text -> ent -> ent -> Prop :=
  | rb_same name b : ~ has_ext name (lit "html") -> relabelled name (EFile b) (EFile b)
  | rb_other name : relabelled name EOther EOther
  | rb_file name b b' : has_ext name (lit "html") -> relabelled_text b b' -> relabelled name (EFile b) (EFile b')
  | rb_dir name l l' : Forall2 (fun x x' => fst x = fst x' /\ relabelled (fst x) (snd x) (snd x')) l l' -> relabelled name (EDir l) (EDir l').
End Site.
