(** PropMove.v -- the same sources elsewhere (C85) and in another environment (C86). *)

From Coq Require Import String List NArith ZArith Bool.
From Verif Require Import Text Utf8 Json Base Syntax Parse Tree Interp Build Disk Js Shipped SpecScope SpecTree SpecSite SpecAlike MoveFacts.
From Verif Require Import TextFacts Utf8Facts.
Import ListNotations.

(** ** C85: the path of the content directory shows in the paths of errors and nowhere else *)
Theorem C85_moved : forall h osenv mode name c p p' st, steady (moved p p') None (st_plugins st) ->
  let (b, r) := build h osenv mode (SourceDir p name c) st in let (b', r') := build h osenv mode (SourceDir p' name c) st in
  both (like_error (moved p p')) eq r r' /\
  (r = Ok tt -> like_opt (like_output (moved p p')) (st_output b) (st_output b') /\
    (forall f dir d, save f b' dir d = save f b dir d) /\ metadata_value b' = metadata_value b).
Proof. exact move_build. Qed.
Print Assumptions C85_moved.
(** JavaScript functions, and the plugins that come with Stuart, do not mind. *)
Theorem C85_js : forall R ps, (forall pl, In pl ps -> pl_parsers pl = [] /\ forall f, In f (pl_fns pl) -> exists name code, f = js_plugin_parser name code) ->
  steady R None ps.
Proof. exact js_all_steady. Qed.
Print Assumptions C85_js.
Theorem C85_shipped : forall R o, steady R None [imgopt o; demo].
Proof. exact (fun R => shipped_steady R None). Qed.
Print Assumptions C85_shipped.

Example C85_host : host := Host (fun _ => false) (fun t => t) None (fun _ => None).
Example C85_content (body : string) : ent := EDir
  [(lit "root.html", EFile (enc (lit "[{{ insert(""m"") }}]")));
   (lit "blog", EDir [(lit "index.html", EFile (enc (lit "{{ begin(""m"") }}" ++ [c_lf] ++ lit body ++ lit "{{ end(""m"") }}")))])].
Example C85_ps : list plugin := [imgopt (fun b => inr b); demo].
Example C85_at (osenv : list (text * text)) (p : path) (c : ent) : stuart * res error unit :=
  build C85_host osenv (lit "production") (SourceDir p (lit "content") (Some c)) (stuart_new config_default C85_ps).
Example C85_home : path := [lit "home"; lit "a"; lit "content"].
Example C85_srv : path := [lit "srv"; lit "content"].
Example C85_case :
  steady (moved C85_home C85_srv) None C85_ps /\
  snd (C85_at [] C85_home (C85_content "{{ demo() }}")) = Ok tt /\
  st_output (fst (C85_at [] C85_home (C85_content "{{ demo() }}"))) <> st_output (fst (C85_at [] C85_srv (C85_content "{{ demo() }}"))) /\
  snd (C85_at [] C85_home (C85_content "{{ $x }}")) = Err (E_Process (TB (C85_home ++ [lit "blog"; lit "index.html"]) 2 2 (XE_UndefinedVariable (lit "x")))) /\
  snd (C85_at [] C85_srv (C85_content "{{ $x }}")) = Err (E_Process (TB (C85_srv ++ [lit "blog"; lit "index.html"]) 2 2 (XE_UndefinedVariable (lit "x")))).
Proof.
  split; [apply C85_shipped|]. split; [vm_compute; reflexivity|]. split; [vm_compute; discriminate|]. split; vm_compute; reflexivity.
Qed.

(** ** C86: a build depends on the environment variables that tags mention, and on no others *)
Theorem C86_env : forall h osenv osenv' mode mode' d st,
  (forall e, sd_ent d = Some e -> steady eq (Some (mentioned h (st_plugins st) e)) (st_plugins st) /\
    agree (Some (mentioned h (st_plugins st) e)) (osenv ++ [(lit "STUART_ENV", mode)]) (osenv' ++ [(lit "STUART_ENV", mode')])) ->
  let (b, r) := build h osenv mode d st in let (b', r') := build h osenv' mode' d st in r' = r /\ st_output b' = st_output b.
Proof. exact env_build. Qed.
Print Assumptions C86_env.
Theorem C86_shipped : forall A o, steady eq A [imgopt o; demo].
Proof. exact (shipped_steady eq). Qed.
Print Assumptions C86_shipped.

(** A site that mentions [$env.SITE] (and [$env]) only: other variables and the mode do not matter;
    this one does. *)
Example C86_content : ent := C85_content "{{ ifdefined($env) }}{{ $env.SITE }}{{ end(ifdefined) }}".
Example C86_body : text := lit "{{ begin(""m"") }}" ++ [c_lf] ++ lit "{{ ifdefined($env) }}{{ $env.SITE }}{{ end(ifdefined) }}" ++ lit "{{ end(""m"") }}".
Example C86_parsed : list ltoken := match parse_html (fun _ => false) (fns C85_ps) [] C86_body with Ok l => l | _ => [] end.
Example C86_tokens : list token := map t_inner C86_parsed.
Example C86_env1 : list (text * text) := [(lit "SITE", lit "A"); (lit "HOME", lit "x")].
Example C86_env2 : list (text * text) := [(lit "PATH", lit "y"); (lit "SITE", lit "A")].
Example C86_env3 : list (text * text) := [(lit "SITE", lit "B")].
Example C86_out (v : list (text * text)) : option node := st_output (fst (C85_at v C85_srv C86_content)).
Example C86_mentions x : mentioned C85_host C85_ps C86_content x -> x = lit "SITE".
Proof.
  intros M. apply mentions in M as (ks & body & toks & t & v & p & T & P & I & V & S). destruct T as (dirs & name & b & t0 & E & At & U & B). apply decoding in U.
  assert (F : (name = lit "root.html" \/ name = lit "index.html") /\ (b = enc (lit "[{{ insert(""m"") }}]") \/
    b = enc (lit "{{ begin(""m"") }}" ++ [c_lf] ++ lit "{{ ifdefined($env) }}{{ $env.SITE }}{{ end(ifdefined) }}" ++ lit "{{ end(""m"") }}"))).
  { clear -E At. revert E. inversion At as [|? k ? ks' ? J At']; subst. destruct J as [J|[J|[]]]; injection J as <- <-.
    - inversion At'; subst. intros E. destruct dirs as [|? [|? ?]]; try discriminate. injection E as <-. split; [now left|left; reflexivity].
    - inversion At' as [|? k2 ? ks2 ? J2 At2]; subst. destruct J2 as [J2|[]]; injection J2 as <- <-. inversion At2; subst. intros E.
      destruct dirs as [|? [|? [|? ?]]]; try discriminate. injection E as _ <-. split; [now right|right; reflexivity]. }
  destruct F as [Fn Fs].
  assert (body = t0). { destruct B as [[_ B]|[X _]]; auto. apply TreeFacts.extension_spec in X. destruct Fn as [-> | ->]; discriminate X. }
  subst t0. clear B E At Fn. destruct Fs as [-> | ->]; vm_compute in U; injection U as <-; vm_compute in P; injection P as <-; cbn [In] in I;
    repeat (destruct I as [<-|I]; [cbn [t_inner] in V; inversion V; subst; vm_compute in S; inversion S; reflexivity|]); destruct I.
Qed.
Example C86_case : (forall e, Some C86_content = Some e -> steady eq (Some (mentioned C85_host C85_ps e)) C85_ps /\
    agree (Some (mentioned C85_host C85_ps e)) (C86_env1 ++ [(lit "STUART_ENV", lit "production")]) (C86_env2 ++ [(lit "STUART_ENV", lit "development")])) /\
  mentioned C85_host C85_ps C86_content (lit "SITE") /\
  C86_out C86_env1 = C86_out C86_env2 /\ C86_out C86_env1 <> C86_out C86_env3 /\ C86_out C86_env1 <> None.
Proof.
  split; [|split; [|split; [vm_compute; reflexivity|split; vm_compute; discriminate]]].
  - intros e E. injection E as <-. split; [apply C86_shipped|]. intros x M. apply C86_mentions in M as ->. intros v. rewrite <- !ScopeFacts.assoc_iff. now split; intros A; vm_compute in A |- *.
  - exists [lit "blog"; lit "index.html"], C86_body, C86_tokens, (TVar (lit "env.SITE")). split; [|split; [apply (GrammarFacts.parse_means _ _ []); exists C86_parsed; split; vm_compute; reflexivity|split; [vm_compute; auto 6|]]].
    + exists [lit "blog"], (lit "index.html"), (enc C86_body), C86_body. split; [reflexivity|]. split; [|split; [apply decoding; vm_compute; reflexivity|left; split; [apply TreeFacts.extension_spec; reflexivity|reflexivity]]].
      eapply ea_child; [right; left; reflexivity|]. eapply ea_child; [left; reflexivity|]. constructor.
    + apply (re_reads _ _ []); [cbn; intuition discriminate|]. constructor.
Qed.
