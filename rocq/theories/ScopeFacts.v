(** ScopeFacts.v -- lemmas for C14 to C19. *)

From Coq Require Import String List NArith ZArith Bool Lia ZifyBool ZifyN ZifyNat.
From Verif Require Import Text TextFacts Utf8 Json Base Syntax Parse Tree Interp Build SpecScope SpecPage InterpFacts.
Import ListNotations.

(** ** Lookup *)
Lemma assoc_iff {A} k (l : list (text * A)) x : assoc k l = Some x <-> first_binding k l x.
Proof.
  induction l as [|[k' v] l IH]; cbn.
  - split; [discriminate|]. intros (l1 & l2 & E & _). now destruct l1.
  - destruct (text_eqb k' k) eqn:E.
    + apply text_eqb_eq in E. subst. split.
      * intros H; injection H as ->. exists [], l. now split.
      * intros (l1 & l2 & E & N). destruct l1 as [|[a b] l1]; cbn in E; injection E; intros; subst; [reflexivity|].
        exfalso. apply N. now left.
    + apply text_eqb_neq in E. rewrite IH. split.
      * intros (l1 & l2 & -> & N). exists ((k', v) :: l1), l2. split; [reflexivity|]. cbn. tauto.
      * intros (l1 & l2 & E' & N). destruct l1 as [|[a b] l1]; cbn in E'; injection E'; intros; subst; [contradiction|].
        exists l1, l2. split; [reflexivity|]. cbn in N. tauto.
Qed.
Lemma assoc_none {A} k (l : list (text * A)) : assoc k l = None <-> ~ In k (map fst l).
Proof.
  induction l as [|[k' v] l IH]; cbn; [tauto|].
  destruct (text_eqb k' k) eqn:E.
  - apply text_eqb_eq in E. split; [discriminate|]. tauto.
  - apply text_eqb_neq in E. rewrite IH. tauto.
Qed.
Lemma assoc_app {A} k (a b : list (text * A)) x : assoc k a = Some x -> assoc k (a ++ b) = Some x.
Proof.
  induction a as [|[k' v] a IH]; cbn; [discriminate|]. destruct (text_eqb k' k); auto.
Qed.

Lemma lookup_iff k st v : lookup_frames k st = Some v <-> visible k st v.
Proof.
  induction st as [|f st IH]; cbn.
  - split; [discriminate|]. intros (a & b & c & E & _). now destruct a.
  - destruct (assoc k (fr_vars f)) as [x|] eqn:E.
    + split.
      * intros H; injection H as ->. exists [], f, st. repeat split; [now apply assoc_iff|constructor].
      * intros (inner & g & outer & E1 & B & N). destruct inner as [|i inner]; cbn in E1; injection E1 as E1 E2; subst.
        -- apply assoc_iff in B. rewrite <- E. now symmetry.
        -- exfalso. inversion N as [|? ? N1 N2]; subst. apply N1. assert (Z : In k (map fst (fr_vars i))); [|exact Z].
           destruct (in_dec text_eq_dec k (map fst (fr_vars i))); [assumption|].
           apply assoc_none in n. congruence.
    + assert (E' := E). apply assoc_none in E. rewrite IH. split.
      * intros (inner & g & outer & -> & B & N). exists (f :: inner), g, outer. repeat split; [exact B|]. now constructor.
      * intros (inner & g & outer & E1 & B & N). destruct inner as [|i inner]; cbn in E1; injection E1 as E1 E2; subst.
        -- apply assoc_iff in B. congruence.
        -- inversion N; subst. now exists inner, g, outer.
Qed.
Lemma lookup_none k st : lookup_frames k st = None <-> Forall (fun f => ~ In k (map fst (fr_vars f))) st.
Proof.
  induction st as [|f st IH]; cbn; [split; constructor|].
  destruct (assoc k (fr_vars f)) eqn:E.
  - split; [discriminate|]. intros H; inversion H; subst. apply assoc_none in H2. congruence.
  - apply assoc_none in E. rewrite IH. split; [now constructor|]. intros H; now inversion H.
Qed.

(** Numerals. *)
Lemma digits_inv n t : digits n t ->
  (exists d, (d < 10)%N /\ n = d /\ t = [(48 + d)%N]) \/
  (exists m t' d, digits m t' /\ (d < 10)%N /\ n = (10 * m + d)%N /\ t = t' ++ [(48 + d)%N]).
Proof. intros H. destruct H as [d Hd|m t' d Hm Hd]; [left; now exists d|right; now exists m, t', d]. Qed.
Lemma digits_nonempty n t : digits n t -> t <> [].
Proof. intros H. destruct H as [d Hd|m t' d Hm Hd]; [discriminate|now destruct t']. Qed.
Lemma is_digit_of d : (d < 10)%N -> is_digit (48 + d)%N = true.
Proof. unfold is_digit. lia. Qed.
Lemma digits_val_iff n t : t <> [] -> (digits_val 0 t = Some n <-> digits n t).
Proof.
  revert n. induction t as [|c t IH] using rev_ind; intros n NE; [contradiction|].
  rewrite digits_val_app. destruct t as [|c' t].
  - cbn [digits_val app]. unfold is_digit. split.
    + destruct ((48 <=? c)%N && (c <=? 57)%N) eqn:E; [|discriminate]. intros H; injection H as <-.
      assert (E' : c = (48 + (c - 48))%N) by lia. rewrite E' at 2. apply dg_one. lia.
    + intros H. destruct (digits_inv _ _ H) as [(d & Hd & -> & E)|(m & t & d & Hm & Hd & _ & E)].
      * assert (Ec := f_equal (fun l => hd 0%N l) E). cbn [hd] in Ec. rewrite Ec. fold (is_digit (48 + d)%N). rewrite is_digit_of by exact Hd. apply f_equal. lia.
      * exfalso. apply digits_nonempty in Hm. destruct t as [|? [|? ?]]; [contradiction|discriminate E|discriminate E].
  - assert (IH' : forall m, digits_val 0 (c' :: t) = Some m <-> digits m (c' :: t)) by (intros; now apply IH).
    clear IH. split.
    + destruct (digits_val 0 (c' :: t)) as [m|]; [|discriminate]. assert (E := proj1 (IH' m) eq_refl).
      cbn [digits_val app]. unfold is_digit. destruct ((48 <=? c)%N && (c <=? 57)%N) eqn:Ec; [|discriminate].
      intros H; injection H as <-. assert (E' : c = (48 + (c - 48))%N) by lia. rewrite E' at 2.
      change (digits (10 * m + (c - 48)) ((c' :: t) ++ [(48 + (c - 48))%N])). apply dg_more; [exact E|lia].
    + intros H. destruct (digits_inv _ _ H) as [(d & Hd & -> & E)|(m & t' & d & Hm & Hd & -> & E)].
      * exfalso. destruct t; discriminate E.
      * apply app_inj_tail in E. destruct E as [<- ->]. apply IH' in Hm. rewrite Hm. cbn [digits_val].
        fold (is_digit (48 + d)%N). rewrite is_digit_of by exact Hd. apply f_equal. lia.
Qed.
Lemma digits_head n t : digits n t -> exists c r, t = c :: r /\ is_digit c = true.
Proof.
  induction 1 as [d Hd|n t d H (c & r & -> & E) Hd].
  - exists (48 + d)%N, []. split; [reflexivity|]. unfold is_digit. lia.
  - now exists c, (r ++ [(48 + d)%N]).
Qed.
Lemma parse_usize_iff t n : parse_usize t = Some n <-> numeral n t /\ fits_usize n.
Proof.
  unfold parse_usize, fits_usize. change (2 ^ 64)%N with 18446744073709551616%N.
  assert (P : forall r, parse_digits r = Some n <-> digits n r).
  { intros r. unfold parse_digits. destruct r as [|c r]; [|now apply digits_val_iff].
    split; [discriminate|]. intros H. destruct (digits_head _ _ H) as (? & ? & ? & _). discriminate. }
  assert (Q : forall r, match parse_digits r with Some n => if (n <? 18446744073709551616)%N then Some n else None | None => None end = Some n
     <-> digits n r /\ (n < 18446744073709551616)%N).
  { intros r. rewrite <- P. destruct (parse_digits r) as [m|]; [|split; [discriminate|intros [? _]; discriminate]].
    destruct (N.ltb_spec m 18446744073709551616); split.
    - intros E; injection E as ->. now split.
    - now intros [E _].
    - discriminate.
    - intros [E L]; injection E as ->. lia. }
  destruct t as [|c t].
  - split; [discriminate|]. intros [[D|(t' & E & _)] _]; [|discriminate].
    destruct (digits_head _ _ D) as (? & ? & ? & _). discriminate.
  - destruct (N.eqb_spec c c_plus) as [->|NE].
    + rewrite Q. split.
      * intros [D L]. split; [right; now exists t|exact L].
      * intros [[D|(t' & E & D)] L]; [|injection E as ->; now split].
        destruct (digits_head _ _ D) as (? & ? & E & K). injection E as <- _. discriminate K.
    + rewrite Q. split.
      * intros [D L]. split; [now left|exact L].
      * intros [[D|(t' & E & D)] L]; [now split|]. injection E as -> _. contradiction.
Qed.

Lemma nth_N_spec {A} n (l : list A) : nth_N n l = nth_error l (N.to_nat n).
Proof.
  revert n. induction l as [|x l IH]; intros n; cbn.
  - now destruct (N.to_nat n).
  - destruct (N.eqb_spec n 0) as [->|NE]; [reflexivity|].
    rewrite IH. assert (E : N.to_nat n = S (N.to_nat (n - 1))) by lia. now rewrite E.
Qed.

Lemma get_step_iff k v x : get_step k v = Some x <-> step_to v k x.
Proof.
  unfold get_step, get_key, get_idx. destruct v as [| | | |l|l]; cbn;
    try (split; [destruct (parse_usize k); discriminate|intros H; inversion H]).
  - destruct (parse_usize k) as [n|] eqn:E.
    + rewrite nth_N_spec. apply parse_usize_iff in E. destruct E as [E1 E2]. split.
      * intros H. now apply (st_idx l k n).
      * intros H. inversion H as [|? ? m ? M1 M2 M3]; subst.
        assert (E : parse_usize k = Some m) by now apply parse_usize_iff.
        assert (E' : parse_usize k = Some n) by now apply parse_usize_iff. congruence.
    + split; [discriminate|]. intros H. inversion H as [|? ? m ? M1 M2 M3]; subst.
      assert (E' : parse_usize k = Some m) by now apply parse_usize_iff. congruence.
  - assert (A := assoc_iff k l x). destruct (assoc k l) as [y|].
    + rewrite A. split; [now apply st_key|]. intros H. now inversion H.
    + split; [destruct (parse_usize k); discriminate|]. intros H. inversion H as [? ? ? HF|]; subst. apply A in HF. discriminate.
Qed.
Lemma get_value_iff p : forall v x, get_value p v = x <-> field v p x.
Proof.
  induction p as [|k p IH]; intros v x; cbn.
  - split; [intros ->; constructor|]. intros H. now inversion H.
  - assert (G := fun y => get_step_iff k v y). destruct (get_step k v) as [y|] eqn:E.
    + rewrite IH. split.
      * intros F. apply (fd_step v k y); [now apply G|exact F].
      * intros F. inversion F as [|? ? z ? ? S1 F1|? ? ? N]; subst.
        -- apply G in S1. injection S1 as ->. exact F1.
        -- exfalso. apply (N y). now apply G.
    + split.
      * intros <-. apply fd_null. intros y S1. apply G in S1. discriminate.
      * intros F. inversion F as [|? ? z ? ? S1 F1|? ? ? N]; subst; [|reflexivity].
        apply G in S1. discriminate.
Qed.

Lemma split_dotted p : forall h, ~ In c_dot h -> Forall (fun k => ~ In c_dot k) p -> split_char c_dot (dotted h p) = (h, p).
Proof.
  induction p as [|k p IH]; intros h Hh Hp; cbn [dotted].
  - now apply split_char_nil.
  - inversion Hp; subst. apply split_char_app; [exact Hh|]. now apply IH.
Qed.
Lemma split_char_spec c t : match split_char c t with (h, r) =>
  ~ In c h /\ Forall (fun k => ~ In c k) r end.
Proof.
  induction t as [|d t IH]; cbn; [split; [tauto|constructor]|].
  destruct (split_char c t) as [h r]. destruct IH as [IH1 IH2].
  destruct (N.eqb_spec d c).
  - split; [tauto|]. now constructor.
  - split; [|exact IH2]. cbn. intros [H|H]; [congruence|contradiction].
Qed.
Lemma split_char_dotted t : match split_char c_dot t with (h, r) => t = dotted h r end.
Proof.
  induction t as [|d t IH]; cbn; [reflexivity|].
  destruct (split_char c_dot t) as [h r]. destruct (N.eqb_spec d c_dot) as [->|NE].
  - cbn. now rewrite <- IH.
  - rewrite IH. now destruct r.
Qed.
Lemma name_parts t : exists h p, t = dotted h p /\ ~ In c_dot h /\ Forall (fun k => ~ In c_dot k) p.
Proof.
  assert (A := split_char_spec c_dot t). assert (B := split_char_dotted t).
  destruct (split_char c_dot t) as [h p]. now exists h, p.
Qed.

Lemma get_variable_iff h p st v : ~ In c_dot h -> Forall (fun k => ~ In c_dot k) p ->
  (get_variable (dotted h p) st = Some v <-> exists v0, visible h st v0 /\ field v0 p v).
Proof.
  intros Hh Hp. unfold get_variable. rewrite split_dotted by assumption.
  assert (L := fun x => lookup_iff h st x). destruct (lookup_frames h st) as [v0|].
  - split.
    + intros E; injection E as E. exists v0. split; [now apply L|]. now apply get_value_iff.
    + intros (v1 & V & F). apply L in V. injection V as <-. f_equal. now apply get_value_iff.
  - split; [discriminate|]. intros (v1 & V & F). apply L in V. discriminate.
Qed.
Lemma get_variable_none h p st : ~ In c_dot h -> Forall (fun k => ~ In c_dot k) p ->
  (get_variable (dotted h p) st = None <-> Forall (fun f => ~ In h (map fst (fr_vars f))) st).
Proof.
  intros Hh Hp. unfold get_variable. rewrite split_dotted by assumption.
  rewrite <- lookup_none. destruct (lookup_frames h st); split; congruence.
Qed.

(** ** C15 *)
Lemma var_prints n w s l v f r x : sc_stack s = f :: r -> get_variable v (f :: r) = Some (VStr x) ->
  exec (S n) w (LTok (TVar v) l) s = Ok (Scope (sc_idx s) (Frame (fr_name f) (fr_vars f) (fr_out f ++ enc x) :: r) (sc_secs s)).
Proof.
  intros S G. cbn [exec t_inner]. unfold var_string. rewrite S, G. unfold emit. now rewrite S.
Qed.

Definition kind_name (v : value) : string :=
  match v with
  | VNull => "null" | VBool _ => "bool" | VNum _ => "number" | VStr _ => "string"
  | VArr _ => "array" | VObj _ => "object"
  end.
Lemma var_fails n w s l v x : get_variable v (sc_stack s) = Some x -> (forall y, x <> VStr y) ->
  exec (S n) w (LTok (TVar v) l) s =
  Err (tb l (match x with VNull => XE_NullError v | _ => XE_InvalidDataType v (lit "string") (lit (kind_name x)) end)).
Proof.
  intros G N. cbn [exec t_inner]. unfold var_string. rewrite G. destruct x; try reflexivity. now destruct (N s0).
Qed.
Lemma var_undefined n w s l v : get_variable v (sc_stack s) = None ->
  exec (S n) w (LTok (TVar v) l) s = Err (tb l (XE_UndefinedVariable v)).
Proof. intros G. cbn [exec t_inner]. unfold var_string. now rewrite G. Qed.

(** ** C16 *)
Lemma printed_bindings f f' r : printed f f' -> bindings (f' :: r) = bindings (f :: r).
Proof. intros (A & B & _). cbn. now rewrite A, B. Qed.

Lemma block_bindings n w t g s s' : plugins_of plugin_ok (w_toks w) -> t_inner t = TFun g -> block_fn g ->
  current w s = Some t -> sc_stack s <> [] -> exec n w t s = Ok s' -> bindings (sc_stack s') = bindings (sc_stack s).
Proof.
  intros P T B C N E. destruct n as [|n]; [discriminate|]. cbn [exec] in E. rewrite T in E.
  destruct (sc_stack s) as [|f r] eqn:S; [contradiction|].
  assert (I : (sc_idx s <= length (w_toks w))%nat).
  { unfold current in C. destruct (sc_idx s); [discriminate|]. apply nth_error_Some. congruence. }
  assert (A := block_ok False w (fun F => match F with end) (fun F => match F with end) n t g s f r
    (exec_ok False w P (fun F => match F with end) (fun F => match F with end) n) T B C S I (fun F => match F with end)).
  rewrite E in A. destruct A as ((f' & S' & Pr) & _). rewrite S'. now apply printed_bindings.
Qed.

Lemma steps_over w f r s s' : plugins_of plugin_ok (w_toks w) ->
  steps w (length (f :: r)) s s' -> over f r (sc_stack s) -> over f r (sc_stack s').
Proof.
  intros P H. induction H as [s|n s t s1 s2 s' L N E H IH]; intros O; [exact O|].
  apply IH. destruct (next_some _ _ _ _ N) as (-> & C & B).
  assert (A := exec_ok False w P (fun F => match F with end) (fun F => match F with end) n t _ C (over_nonempty _ _ _ O) B (fun F => match F with end)).
  rewrite E in A. destruct A as (A & _). now apply (over_shape f r (sc_stack s)).
Qed.

Lemma section_bindings w s n label custom l s1 s2 : plugins_of plugin_ok (w_toks w) -> sc_stack s <> [] ->
  exec n w (LTok (TFun (FBegin label custom)) l) s = Ok s1 ->
  steps w (length (sc_stack s)) s1 s2 -> (length (sc_stack s2) <= length (sc_stack s))%nat ->
  bindings (sc_stack s2) = bindings (sc_stack s).
Proof.
  intros P N E H L. destruct (sc_stack s) as [|f r] eqn:S; [contradiction|].
  destruct n as [|n]; [discriminate|]. cbn in E. injection E as <-.
  assert (O := steps_over w f r _ _ P H). cbn [sc_stack push_frame set_stack] in O. rewrite S in O.
  specialize (O ltac:(exists [new_frame (lit "begin:" ++ label)], f; split; [reflexivity|apply printed_refl])).
  destruct (over_done _ _ _ O L) as (f' & E & Pr). rewrite E. now apply printed_bindings.
Qed.

(** ** C17 *)
Lemma shape_depth st st' d f f' : shape st st' -> nth_error (rev st) d = Some f -> nth_error (rev st') d = Some f' -> grown f f'.
Proof.
  assert (K : forall (a : list frame) x y, nth_error (rev (x :: a)) d = Some f -> nth_error (rev (y :: a)) d = Some f' -> grown x y -> grown f f').
  { intros a x y. cbn. intros H1 H2 G. destruct (Nat.lt_ge_cases d (length (rev a))) as [L|L].
    - rewrite nth_error_app1 in H1, H2 by assumption. rewrite H1 in H2. injection H2 as ->. apply grown_refl.
    - rewrite nth_error_app2 in H1, H2 by assumption. destruct (d - length (rev a))%nat as [|[|]]; try discriminate.
      cbn in H1, H2. injection H1 as ->. injection H2 as ->. exact G. }
  intros S H H'. destruct S as [st nf F|a a' q G|a b b' q HC G].
  - cbn in H'. destruct (Nat.lt_ge_cases d (length (rev st))) as [L|L].
    + rewrite nth_error_app1 in H' by assumption. rewrite H in H'. injection H' as ->. apply grown_refl.
    + apply nth_error_None in L. congruence.
  - now apply (K q a a').
  - apply (K q b b'); [|exact H'|now apply printed_grown]. change (rev (a :: b :: q)) with (rev (b :: q) ++ [a]) in H.
    assert (L : (d < length (rev (b' :: q)))%nat) by (apply nth_error_Some; congruence).
    rewrite nth_error_app1 in H; [exact H|]. rewrite rev_length in *. exact L.
Qed.

Lemma immutable n w t s s' d f f' k v : plugins_of plugin_ok (w_toks w) -> current w s = Some t -> sc_stack s <> [] ->
  exec n w t s = Ok s' -> nth_error (rev (sc_stack s)) d = Some f -> nth_error (rev (sc_stack s')) d = Some f' ->
  first_binding k (fr_vars f) v -> first_binding k (fr_vars f') v.
Proof.
  intros P C N E H H' B.
  assert (I : (sc_idx s <= length (w_toks w))%nat).
  { unfold current in C. destruct (sc_idx s); [discriminate|]. apply nth_error_Some. congruence. }
  assert (A := exec_ok False w P (fun F => match F with end) (fun F => match F with end) n t _ C N I (fun F => match F with end)).
  rewrite E in A. destruct A as (A & _). destruct (shape_depth _ _ _ _ _ A H H') as (_ & [vs Q] & _).
  apply assoc_iff. rewrite Q. apply assoc_app. now apply assoc_iff.
Qed.

Lemma import_ok n w l x file s f r nm b j meta src : 
  current w s = Some (LTok (TFun (FImport x file)) l) -> sc_stack s = f :: r ->
  get_at_path (w_input w) file = Some (NFile nm b (PJson j) meta src) ->
  exec (S n) w (LTok (TFun (FImport x file)) l) s =
  match assoc x (fr_vars f) with
  | None => Ok (Scope (sc_idx s) (Frame (fr_name f) (fr_vars f ++ [(x, j)]) (fr_out f) :: r) (sc_secs s))
  | Some _ => Err (tb l (XE_VariableAlreadyExists x))
  end.
Proof.
  intros C S G. cbn [exec t_inner exec_fn]. unfold with_current. rewrite C. unfold exec_import. rewrite G, S.
  now destruct (assoc x (fr_vars f)).
Qed.

(** ** C18 *)
Lemma assoc_map_str k (l : list (text * text)) :
  assoc k (map (fun kv => (fst kv, VStr (snd kv))) l) = option_map VStr (assoc k l).
Proof. induction l as [|[a b] l IH]; cbn; [reflexivity|]. destruct (text_eqb a k); [reflexivity|exact IH]. Qed.
Lemma assoc_app_none {A} k (a b : list (text * A)) : ~ In k (map fst a) -> assoc k (a ++ b) = assoc k b.
Proof.
  induction a as [|[k' v] a IH]; cbn; [reflexivity|]. intros N. destruct (text_eqb k' k) eqn:E.
  - apply text_eqb_eq in E. tauto.
  - apply IH. tauto.
Qed.
Lemma stuart_env osenv mode : ~ In (lit "STUART_ENV") (map fst osenv) ->
  get_variable (lit "env.STUART_ENV") [base_frame (build_vars osenv mode)] = Some (VStr mode).
Proof.
  intros N. unfold get_variable. change (split_char c_dot (lit "env.STUART_ENV")) with (lit "env", [lit "STUART_ENV"]).
  cbn [lookup_frames]. unfold base_frame, add_var, new_frame. cbn [fr_vars app].
  assert (E : assoc (lit "env") [(lit "env", VObj (map (fun kv => (fst kv, VStr (snd kv))) (build_vars osenv mode)))] =
    Some (VObj (map (fun kv => (fst kv, VStr (snd kv))) (build_vars osenv mode)))) by reflexivity.
  rewrite E. cbn [get_value]. unfold get_step, get_key. rewrite assoc_map_str. unfold build_vars.
  rewrite assoc_app_none by exact N. reflexivity.
Qed.

Lemma lookup_inner k inner rest : Forall (fun g => ~ In k (map fst (fr_vars g))) inner -> lookup_frames k (inner ++ rest) = lookup_frames k rest.
Proof.
  induction 1 as [|g inner N _ IH]; [reflexivity|]. cbn [app lookup_frames].
  assert (E := assoc_app_none k (fr_vars g) [] N). rewrite app_nil_r in E. rewrite E. exact IH.
Qed.
Lemma stuart_env_exact osenv mode : exists v, first_binding (lit "STUART_ENV") (osenv ++ [(lit "STUART_ENV", mode)]) v /\
  forall inner f, grown (base_frame (build_vars osenv mode)) f -> Forall (fun g => ~ In (lit "env") (map fst (fr_vars g))) inner ->
  get_variable (lit "env.STUART_ENV") (inner ++ [f]) = Some (VStr v).
Proof.
  assert (A : exists v, assoc (lit "STUART_ENV") (build_vars osenv mode) = Some v).
  { unfold build_vars. induction osenv as [|[a b] l IH]; [now exists mode|]. cbn [app assoc]. destruct (text_eqb a _); [now exists b|exact IH]. }
  destruct A as [v A]. exists v. split; [now apply assoc_iff|].
  intros inner f (_ & [vs V] & _) I. unfold get_variable. change (split_char c_dot (lit "env.STUART_ENV")) with (lit "env", [lit "STUART_ENV"]).
  cbv beta iota. rewrite (lookup_inner (lit "env") inner [f] I). cbn [lookup_frames]. rewrite V.
  assert (E : assoc (lit "env") (fr_vars (base_frame (build_vars osenv mode)) ++ vs) =
    Some (VObj (map (fun kv => (fst kv, VStr (snd kv))) (build_vars osenv mode)))) by reflexivity.
  rewrite E. cbn [get_value]. unfold get_step, get_key. rewrite assoc_map_str, A. reflexivity.
Qed.

(** ** C19 *)
Definition proc_world (pr : processor) (i : node) (toks : list ltoken) : world := World (pr_host pr) i toks.
Lemma phase_based pr toks b secs s : plugins_of plugin_ok toks -> ~ In c_colon (fr_name b) ->
  phase pr toks [b] secs = Ok s -> based b (sc_stack s) /\ exists x, sc_secs s = secs ++ x.
Proof.
  intros P NC H. unfold phase in H. destruct (pr_input pr) as [i|]; [|discriminate].
  assert (A := run_ok False (World (pr_host pr) i toks) P (fun F => match F with end) (fun F => match F with end) b NC
     (Scope 0 [b] secs) (based_self b) eq_refl).
  rewrite H in A. destruct A as (A & _ & B). now split.
Qed.
Lemma based_top_base b f r : ~ In c_colon (fr_name b) -> based b (f :: r) -> is_base f = true -> r = [] /\ grown b f.
Proof.
  intros NC (top & b' & E & G & F) I. destruct top as [|x top]; cbn in E; injection E as -> ->; [now split|].
  exfalso. inversion F as [|? ? F1 F2]; subst. unfold is_base in I. apply text_eqb_eq in I.
  unfold colon_named in F1. rewrite I in F1. cbn in F1. repeat (destruct F1 as [F1|F1]; [discriminate|]). exact F1.
Qed.
Lemma two_phases_root pr src toks root first b out : plugins_of plugin_ok toks -> ~ In c_colon (fr_name first) ->
  two_phases pr src toks root first b = Ok out ->
  exists s s2 f2 r2, phase pr toks [first] [] = Ok s /\ (exists f, sc_stack s = [f] /\ grown first f) /\
    phase pr root [b] (sc_secs s) = Ok s2 /\ sc_stack s2 = f2 :: r2 /\ out = fr_out f2.
Proof.
  intros P NC H. unfold two_phases in H. destruct (phase pr toks [first] []) as [s| | |] eqn:E; try discriminate. cbn [bind] in H.
  destruct (phase_based _ _ _ _ _ P NC E) as [B _]. destruct (sc_stack s) as [|f r] eqn:S; [discriminate|].
  destruct (is_base f) eqn:I; [|discriminate]. destruct (based_top_base _ _ _ NC B I) as [-> G].
  destruct (phase pr root [b] (sc_secs s)) as [s2| | |] eqn:E2; try discriminate. cbn [bind] in H.
  destruct (sc_stack s2) as [|f2 r2] eqn:S2; [discriminate|]. injection H as <-.
  exists s, s2, f2, r2. split; [reflexivity|]. split; [now exists f|]. now repeat split.
Qed.

Lemma md_value_any {E F} m v : md_to_value (E := E) m = Ok v -> md_to_value (E := F) m = Ok v.
Proof. unfold md_to_value. destruct (md_html m); cbn; [|discriminate]. intros H. now injection H as <-. Qed.

Lemma render_root pr e src p b root o secs : plugins_of plugin_ok (page_tokens e p) ->
  ~ In c_colon (fr_name b) -> pr_base pr = Some b -> ev_root e = Some root -> records pr e p secs ->
  render_page pr e src p = Ok o -> exists out, po_contents o = Some out /\ root_prints pr root b secs out.
Proof.
  intros P NC HB HR R H. destruct R as [toks b' s HB' Ph|name m b' t v s HB' HM V Ph]; rewrite HB in HB'; injection HB' as <-.
  - cbn in H. unfold process_html in H. rewrite HR, HB in H. cbn [ok_or bind] in H.
    destruct (two_phases pr src toks root b b) as [out| | |] eqn:T; try discriminate. injection H as <-.
    exists out. split; [reflexivity|]. cbn in P.
    destruct (two_phases_root _ _ _ _ _ _ _ P NC T) as (s' & s2 & f2 & r2 & E1 & _ & E3 & E4 & E5).
    rewrite Ph in E1. injection E1 as <-. now exists s2, f2, r2.
  - cbn in H. unfold process_markdown in H. rewrite HR, HM, HB in H. cbn [ok_or bind] in H.
    rewrite (md_value_any _ _ V) in H. cbn [bind] in H.
    destruct (two_phases pr src t root _ b) as [out| | |] eqn:T; try discriminate. cbn [bind] in H.
    destruct (strip_suffix (lit ".md") name); [|discriminate]. injection H as <-.
    exists out. split; [reflexivity|]. cbn in P. rewrite HM in P.
    destruct (two_phases_root _ _ _ _ _ _ _ P (NC : ~ In c_colon (fr_name (add_var (lit "self") v b))) T) as (s' & s2 & f2 & r2 & E1 & _ & E3 & E4 & E5).
    unfold add_var in E1. rewrite Ph in E1. injection E1 as <-. now exists s2, f2, r2.
Qed.
Lemma same_sections pr e src1 src2 p1 p2 b root o1 o2 secs :
  plugins_of plugin_ok (page_tokens e p1) -> plugins_of plugin_ok (page_tokens e p2) ->
  ~ In c_colon (fr_name b) -> pr_base pr = Some b -> ev_root e = Some root ->
  records pr e p1 secs -> records pr e p2 secs ->
  render_page pr e src1 p1 = Ok o1 -> render_page pr e src2 p2 = Ok o2 -> po_contents o1 = po_contents o2.
Proof.
  intros P1 P2 NC HB HR R1 R2 H1 H2.
  destruct (render_root _ _ _ _ _ _ _ _ P1 NC HB HR R1 H1) as (x & -> & s & f & r & A & B & ->).
  destruct (render_root _ _ _ _ _ _ _ _ P2 NC HB HR R2 H2) as (y & -> & s' & f' & r' & A' & B' & ->).
  rewrite A in A'. injection A' as <-. rewrite B in B'. now injection B' as <- _.
Qed.

Lemma build_base h osenv mode d st : snd (build h osenv mode d st) = Ok tt ->
  st_base (fst (build h osenv mode d st)) = Some (base_frame (build_vars osenv mode)).
Proof.
  unfold build. destruct (node_new _ _ _ _ _ _); cbn; try discriminate.
  destruct (preprocess _ _); cbn; try discriminate.
  destruct (build_tree _ _ _ _) as [[x y]| | |]; cbn; try discriminate. reflexivity.
Qed.

Lemma var_refuses n w s l h p v0 v : ~ In c_dot h -> Forall (fun k => ~ In c_dot k) p ->
  visible h (sc_stack s) v0 -> field v0 p v -> (forall x, v <> VStr x) ->
  exec (S n) w (LTok (TVar (dotted h p)) l) s =
  Err (tb l (match v with
             | VNull => XE_NullError (dotted h p)
             | VBool _ => XE_InvalidDataType (dotted h p) (lit "string") (lit "bool")
             | VNum _ => XE_InvalidDataType (dotted h p) (lit "string") (lit "number")
             | VStr _ => XE_InvalidDataType (dotted h p) (lit "string") (lit "string")
             | VArr _ => XE_InvalidDataType (dotted h p) (lit "string") (lit "array")
             | VObj _ => XE_InvalidDataType (dotted h p) (lit "string") (lit "object")
             end)).
Proof.
  intros Hh Hp V F N. rewrite (var_fails n w s l (dotted h p) v); [now destruct v| |exact N].
  apply get_variable_iff; [exact Hh|exact Hp|]. now exists v0.
Qed.

Lemma bindings_lookup name : forall st st', bindings st = bindings st' -> lookup_frames name st = lookup_frames name st'.
Proof.
  induction st as [|f st IH]; intros [|f' st'] E; cbn in E; try discriminate; [reflexivity|].
  injection E as E1 E2 E3. cbn. rewrite E2. now rewrite (IH st' E3).
Qed.
Lemma bindings_variable st st' name : bindings st = bindings st' -> get_variable name st = get_variable name st'.
Proof.
  intros E. unfold get_variable. destruct (split_char c_dot name) as [h p]. now rewrite (bindings_lookup h st st' E).
Qed.
Lemma import_new n w l x file s f r nm b j meta src :
  current w s = Some (LTok (TFun (FImport x file)) l) -> sc_stack s = f :: r ->
  get_at_path (w_input w) file = Some (NFile nm b (PJson j) meta src) -> ~ In x (map fst (fr_vars f)) ->
  exec (S n) w (LTok (TFun (FImport x file)) l) s =
  Ok (Scope (sc_idx s) (Frame (fr_name f) (fr_vars f ++ [(x, j)]) (fr_out f) :: r) (sc_secs s)).
Proof. intros C S G N. rewrite (import_ok n w l x file s f r nm b j meta src C S G). apply assoc_none in N. now rewrite N. Qed.
Lemma import_again n w l x file s f r nm b j meta src :
  current w s = Some (LTok (TFun (FImport x file)) l) -> sc_stack s = f :: r ->
  get_at_path (w_input w) file = Some (NFile nm b (PJson j) meta src) -> In x (map fst (fr_vars f)) ->
  exec (S n) w (LTok (TFun (FImport x file)) l) s = Err (tb l (XE_VariableAlreadyExists x)).
Proof.
  intros C S G N. rewrite (import_ok n w l x file s f r nm b j meta src C S G).
  destruct (assoc x (fr_vars f)) eqn:E; [reflexivity|]. apply assoc_none in E. contradiction.
Qed.
Lemma stuart_env_refuted : exists h osenv mode d out,
  snd (build h osenv mode d (stuart_new config_default [])) = Ok tt /\
  st_output (fst (build h osenv mode d (stuart_new config_default []))) = Some out /\
  option_map n_contents (get_at_path out (lit "a.html")) = Some (Some (enc (lit "other"))) /\
  mode = lit "production" /\
  d = SourceDir [] [] (Some (EDir [(lit "root.html", EFile (enc (lit "{{ $env.STUART_ENV }}"))); (lit "a.html", EFile [])])).
Proof.
  exists (Host (fun _ => false) (fun t => t) None (fun _ => None)), [(lit "STUART_ENV", lit "other")], (lit "production").
  eexists. eexists. split; [|split; [|split; [|split; [reflexivity|reflexivity]]]]; vm_compute; reflexivity.
Qed.
Lemma base_frame_ok vars : ~ In c_colon (fr_name (base_frame vars)) /\ map fst (fr_vars (base_frame vars)) = [lit "env"].
Proof.
  split; [|reflexivity]. cbn. intros F. repeat (destruct F as [F|F]; [discriminate|]). exact F.
Qed.
