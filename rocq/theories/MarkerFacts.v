(** MarkerFacts.v -- the marker of an error report is under the place of the error (C64). *)

From Coq Require Import String List NArith ZArith Bool Lia.
From Verif Require Import Text Utf8 Json Base Syntax Parse Tree Interp Build Disk Cli Dev SpecTemplate SpecLocation SpecMarkdown SpecDev.
From Verif Require Import TextFacts ParseInv ParseErr ParseLoc MarkdownFacts DevFacts.
Import ListNotations.

Definition line_end (e : text) : Prop := e = [c_lf] \/ e = [c_cr; c_lf].
Lemma lines_head ls t : text_lines ls t -> t <> [] -> exists cur ls', ls = cur :: ls' /\ ~ In c_lf cur /\
  ((exists e t', line_end e /\ t = (cur ++ e) ++ t' /\ text_lines ls' t') \/ t = cur).
Proof.
  intros T NE. inversion T as [? ? E|ls0 t0 l E NL NLF]; subst.
  - inversion E as [|l ls0 t0 N1 N2 E0|l ls0 t0 N1 E0]; subst; [contradiction| |]; exists l, ls0; split; try reflexivity; split; try assumption; left.
    + exists [c_lf], t0. split; [now left|]. split; [now rewrite <- app_assoc|now constructor].
    + exists [c_cr; c_lf], t0. split; [now right|]. split; [now rewrite <- app_assoc|now constructor].
  - inversion E as [|l' ls1 t1 N1 N2 E0|l' ls1 t1 N1 E0]; subst.
    + exists l, []. split; [reflexivity|]. split; [exact NLF|now right].
    + exists l', (ls1 ++ [l]). split; [reflexivity|]. split; [exact N1|]. left. exists [c_lf], (t1 ++ l). split; [now left|]. split; [now rewrite <- !app_assoc|]. now constructor.
    + exists l', (ls1 ++ [l]). split; [reflexivity|]. split; [exact N1|]. left. exists [c_cr; c_lf], (t1 ++ l). split; [now right|]. split; [now rewrite <- !app_assoc|]. now constructor.
Qed.
Lemma newlines_app a b : newlines (a ++ b) = (newlines a + newlines b)%N.
Proof. unfold newlines. rewrite count_occ_app. apply Nat2N.inj_add. Qed.
Lemma newlines_none a : ~ In c_lf a -> newlines a = 0%N.
Proof. intros N. unfold newlines. apply (count_occ_not_In N.eq_dec) in N. now rewrite N. Qed.
Lemma shown_line ls : forall q c rest l first, text_lines ls (q ++ c :: rest) -> last_line_is q l first -> ~ In c_cr l ->
  exists cur r, nth_error ls (N.to_nat (newlines q)) = Some cur /\ cur = l ++ r.
Proof.
  induction ls as [|cur0 ls IH]; intros q c rest l first T [NL LL] NC.
  - destruct (lines_head _ _ T) as (cur & ls' & E & _); [now destruct q|discriminate].
  - destruct (lines_head _ _ T) as (cur & ls' & E & NF & D); [now destruct q|]. injection E as <- <-.
    destruct first.
    + subst q. rewrite newlines_none by exact NL. exists cur0. cbn [N.to_nat nth_error]. destruct D as [(e & t' & LE & E & T')|E].
      * rewrite <- app_assoc in E. destruct (app_eq_app _ _ _ _ E) as [m [[E1 E2]|[E1 E2]]]; [|now exists m].
        destruct m as [|x m]; [exists []; rewrite app_nil_r in E1; now rewrite app_nil_r|].
        destruct LE as [-> | ->]; cbn [app] in E2; injection E2 as <- E2.
        -- exfalso. apply NL. rewrite E1. apply in_or_app. right. now left.
        -- exfalso. apply NC. rewrite E1. apply in_or_app. right. now left.
      * exists (c :: rest). split; [reflexivity|now symmetry].
    + destruct LL as [p ->]. destruct D as [(e & t' & LE & E & T')|E].
      2:{ exfalso. apply NF. rewrite <- E. apply in_or_app. left. apply in_or_app. right. now left. }
      assert (NE : newlines (cur0 ++ e) = 1%N) by (rewrite newlines_app, newlines_none by exact NF; destruct LE as [-> | ->]; reflexivity).
      assert (G : exists m, p ++ [c_lf] ++ l = (cur0 ++ e) ++ m /\ t' = m ++ c :: rest).
      { destruct (app_eq_app _ _ _ _ E) as [m [[E1 E2]|[E1 E2]]]; [now exists m|]. destruct m as [|x m]; [exists []; split; [now rewrite app_nil_r in E1 |- *|exact (eq_sym E2)]|]. exfalso.
        assert (LAST : exists y, (cur0 ++ e) = y ++ [c_lf] /\ ~ In c_lf y).
        { destruct LE as [-> | ->]; [now exists cur0|]. exists (cur0 ++ [c_cr]). split; [now rewrite <- app_assoc|]. intros I. apply in_app_or in I. destruct I as [I|[I|[]]]; [contradiction|discriminate]. }
        destruct LAST as (y & Y & NY). rewrite Y in E1. destruct (exists_last (l := x :: m)) as (m' & z & Z); [discriminate|]. rewrite Z in E1.
        rewrite !app_assoc in E1. apply app_inj_tail in E1. destruct E1 as [E1 _]. apply NY. rewrite E1. apply in_or_app. left. apply in_or_app. left. apply in_or_app. right. now left. }
      destruct G as (m & E1 & E2). subst t'.
      assert (LM : exists f, last_line_is m l f).
      { destruct (app_eq_app _ _ _ _ E1) as [x [[X1 X2]|[X1 X2]]].
        - (* p = (cur0 ++ e) ++ x *) exists false. split; [exact NL|]. exists x. exact X2.
        - (* cur0 ++ e = p ++ x, [lf] ++ l = x ++ m *) destruct x as [|x0 x]; [exists false; split; [exact NL|]; exists []; exact (eq_sym X2)|].
          cbn [app] in X2. injection X2 as <- X2. destruct x as [|x1 x]; [exists true; split; [exact NL|exact (eq_sym X2)]|]. exfalso.
          destruct (exists_last (l := x1 :: x)) as (m' & z & Z); [discriminate|].
          assert (z = c_lf). { replace (cur0 ++ e) with (removelast (cur0 ++ e) ++ [c_lf]) in X1.
            - rewrite Z in X1. change (c_lf :: m' ++ [z]) with ((c_lf :: m') ++ [z]) in X1. rewrite app_assoc in X1. apply app_inj_tail in X1. now destruct X1.
            - destruct LE as [-> | ->]; [now rewrite removelast_last|]. change [c_cr; c_lf] with ([c_cr] ++ [c_lf]). now rewrite app_assoc, removelast_last. }
          subst z. apply NL. rewrite X2. rewrite Z. apply in_or_app. left. apply in_or_app. right. now left. }
      destruct LM as [f LM]. destruct (IH m c rest l f T' LM NC) as (cur & r & N & R). exists cur, r. split; [|exact R].
      rewrite E1, newlines_app, NE. replace (N.to_nat (1 + newlines m)) with (S (N.to_nat (newlines m))) by lia. exact N.
Qed.
Lemma width_no_cr l : ~ In c_cr l -> width l = N.of_nat (length l).
Proof.
  intros N. unfold width. f_equal. induction l as [|x l IH]; [reflexivity|]. cbn [filter]. destruct (N.eqb_spec x c_cr) as [->|]; [exfalso; apply N; now left|].
  cbn [negb length]. f_equal. apply IH. intros I. apply N. now right.
Qed.
Lemma marked checked fname msg help ls q c rest l (first : bool) : text_lines ls (q ++ c :: rest) -> last_line_is q l first -> ~ In c_cr l ->
  exists cur r o rep, nth_error ls (N.to_nat (newlines q)) = Some cur /\ cur = l ++ r /\
    report checked fname (1 + newlines q) (width l + (if first then 1 else 0)) msg help (Some (q ++ c :: rest)) = Ok rep /\
    with_preview fname (1 + newlines q) (width l + (if first then 1 else 0)) msg help cur o rep /\ o <= length l <= o + 2.
Proof.
  intros T LL NC. destruct (shown_line ls q c rest l first T LL NC) as (cur & r & N & R).
  destruct (report_preview checked fname (1 + newlines q) (width l + (if first then 1 else 0)) msg help _ ls cur T) as (rep & R1 & R2); [lia|now replace (1 + newlines q - 1)%N with (newlines q) by lia|].
  exists cur, r. eexists. exists rep. split; [exact N|]. split; [exact R|]. split; [exact R1|]. split; [exact R2|]. rewrite width_no_cr by exact NC. destruct first; lia.
Qed.
Lemma line_no_cr t q c rest l (first : bool) : usual_ends t -> t = q ++ c :: rest -> last_line_is q l first ->
  ~ In c_cr l \/ exists l', l = l' ++ [c_cr] /\ ~ In c_cr l'.
Proof.
  intros U -> [NL LL]. destruct (in_dec N.eq_dec c_cr l) as [I|N]; [right|now left]. apply in_split in I. destruct I as (a & b & E). subst l.
  assert (Q : exists p, q = p ++ a ++ c_cr :: b) by (destruct first; [now exists []|destruct LL as [p ->]; exists (p ++ [c_lf]); now rewrite <- app_assoc]).
  destruct Q as [p Q].
  assert (B : b = []).
  { destruct b as [|x b]; [reflexivity|]. destruct (U (p ++ a) (x :: b ++ c :: rest)) as [b' E]; [rewrite Q; now rewrite <- !app_assoc|].
    injection E as -> _. exfalso. apply NL. apply in_or_app. right. right. now left. }
  subst b. exists a. split; [reflexivity|]. intros I. apply in_split in I. destruct I as (a1 & a2 & ->).
  destruct (U (p ++ a1) (a2 ++ c_cr :: c :: rest)) as [b' E]; [rewrite Q; now rewrite <- !app_assoc|].
  destruct a2 as [|x a2]; [discriminate|]. injection E as -> _. apply NL. apply in_or_app. left. apply in_or_app. right. right. now left.
Qed.
Lemma marks_position checked file msg help t q c rest : usual_ends t -> t = q ++ c :: rest ->
  exists rep, report checked file (fst (last_position (q ++ [c]))) (snd (last_position (q ++ [c]))) msg help (Some t) = Ok rep /\
    marks t q file msg help rep.
Proof.
  intros U E. destruct (last_line_exists q) as (l & first & LL). unfold last_position. rewrite rev_app_distr. cbn [rev app]. rewrite rev_involutive. cbn [fst snd].
  unfold line_after. rewrite (column_after_line q l first LL). destruct (text_lines_exists t) as [ls T].
  destruct (line_no_cr t q c rest l first U E LL) as [N|(l' & L & N)].
  - subst t. destruct (marked checked file msg help ls q c rest l first T LL N) as (cur & r & o & rep & N1 & R & R1 & R2 & O).
    exists rep. split; [exact R1|]. exists ls, cur, l, l, r, first, (width l + (if first then 1 else 0))%N, o. split; [exact T|]. split; [exact LL|]. split; [now left|]. now repeat (split; [assumption|]).
  - subst l. assert (Q : exists q0, q = q0 ++ [c_cr] /\ last_line_is q0 l' first).
    { destruct LL as [NL LL]. assert (NL' : ~ In c_lf l') by (intros I; apply NL, in_or_app; now left). destruct first; [now exists l'|]. destruct LL as [p ->]. exists (p ++ [c_lf] ++ l'). split; [now rewrite <- !app_assoc|]. split; [exact NL'|now exists p]. }
    destruct Q as (q0 & -> & LL0). subst t. assert (T' := T). rewrite <- app_assoc in T'. cbn [app] in T'.
    destruct (marked checked file msg help ls q0 c_cr (c :: rest) l' first T' LL0 N) as (cur & r & o & rep & N1 & R & R1 & R2 & O).
    assert (EN : newlines (q0 ++ [c_cr]) = newlines q0) by (rewrite newlines_app; cbn; lia).
    assert (EW : width (l' ++ [c_cr]) = width l') by (unfold width; rewrite filter_app; cbn; now rewrite app_nil_r).
    rewrite EN, EW. exists rep. split; [rewrite <- app_assoc; exact R1|].
    exists ls, cur, (l' ++ [c_cr]), l', r, first, (width l' + (if first then 1 else 0))%N, o. rewrite EN.
    split; [exact T|]. split; [exact LL|]. split; [now right|]. now repeat (split; [assumption|]).
Qed.
Lemma usual_lf t : ~ In c_cr t -> usual_ends t.
Proof. intros N a b ->. exfalso. apply N. apply in_or_app. right. now left. Qed.
Lemma parse_marked ext plugins file input e : parse_html ext plugins file input = Err e -> usual_ends input ->
  exists a src seen left q c, input = (q ++ [c]) ++ left /\ q ++ [c] = a ++ src ++ open_tag ++ seen /\ tagged ext a /\ mistake ext plugins seen left (tb_kind e) /\
  forall checked fname msg help, exists rep, report checked fname (tb_line e) (tb_col e) msg help (Some input) = Ok rep /\ marks input q fname msg help rep.
Proof.
  intros P U. destruct (parse_html_err _ _ _ _ _ P) as (a & src & seen & left & E & TG & M & _ & L).
  destruct (exists_last (l := a ++ src ++ open_tag ++ seen)) as (q & c & Q); [intros X; apply app_eq_nil in X; destruct X as [_ X]; apply app_eq_nil in X; destruct X as [_ X]; discriminate|].
  exists a, src, seen, left, q, c. assert (I : input = (q ++ [c]) ++ left) by (rewrite <- Q, E; now rewrite <- !app_assoc).
  split; [exact I|]. split; [now symmetry|]. split; [exact TG|]. split; [exact M|]. intros checked fname msg help.
  rewrite Q in L. destruct (marks_position checked fname msg help input q c left U) as (rep & R1 & R2); [now rewrite I, <- app_assoc|].
  rewrite <- L in R1. cbn [fst snd] in R1. now exists rep.
Qed.
Lemma tag_marked ext plugins file input toks k loc : parse_html ext plugins file input = Ok toks -> In (LTok k loc) toks -> is_tag k -> usual_ends input ->
  exists q c, tag_at ext input k (q ++ [c]) /\
  forall checked fname msg help, exists rep, report checked fname (l_line loc) (l_col loc) msg help (Some input) = Ok rep /\ marks input q fname msg help rep.
Proof.
  intros P I K U. destruct (parse_html_tags _ _ _ _ _ _ _ P I K) as (q & c & l & first & T & LL & E). exists q, c. split; [exact T|].
  intros checked fname msg help. destruct T as (src & w & body & rest & _ & _ & _ & X).
  destruct (marks_position checked fname msg help input q c (body ++ close_tag ++ rest) U) as (rep & R1 & R2); [now rewrite X, <- app_assoc|].
  exists rep. split; [|exact R2]. unfold last_position in R1. rewrite rev_app_distr in R1. cbn [rev app] in R1. rewrite rev_involutive in R1. cbn [fst snd] in R1.
  unfold line_after in R1. rewrite (column_after_line q l first LL) in R1. now subst loc.
Qed.
Definition front_post : text := lit "---" ++ [c_lf] ++ lit "a: ""b""" ++ [c_lf] ++ lit "---" ++ [c_lf] ++ lit "{{ nope() }}".
Lemma markdown_marker : exists input e rep, usual_ends input /\ (forall a b, input = a ++ open_tag ++ b -> newlines a = 3%N) /\
  parse_markdown (fun _ => false) [] [] input = Err e /\ report false (lit "a.md") (tb_line e) (tb_col e) [lit "error"] None (Some input) = Ok rep /\
  with_preview (lit "a.md") (tb_line e) (tb_col e) [lit "error"] None (lit "---") 1 rep.
Proof.
  assert (P : exists e, parse_markdown (fun _ => false) [] [] front_post = Err e /\ (tb_line e, tb_col e) = (1, 3)%N) by (eexists; split; vm_compute; reflexivity).
  destruct P as (e & P & L). injection L as L1 L2.
  destruct (report_preview false (lit "a.md") 1 3 [lit "error"] None front_post (lines front_post) (lit "---") (lines_spec _)) as (rep & R & W); [reflexivity|reflexivity|].
  exists front_post, e, rep. split; [apply usual_lf; vm_compute; intuition discriminate|]. split; [|rewrite L1, L2; now repeat split].
  intros a b E. do 40 (destruct a as [|? a]; [first [discriminate E|reflexivity]|]; first [discriminate E|cbn in E; injection E as <- E]).
Qed.
