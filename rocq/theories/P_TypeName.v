(** C39: type names (src/metaresc.c:73-90, 1241-1257, 1297-1354). *)
From Coq Require Import String Ascii.
From Verif Require Import Base TypeName TypeNameProof.
Local Open Scope list_scope.
Local Open Scope Z_scope.

(** *** The statements' own vocabulary *)
Definition codes (s : string) : list Z := map (fun c => Z.of_nat (nat_of_ascii c)) (list_ascii_of_string s).
(** The words of C that do not belong to the name of a type. *)
Definition qualifiers : list (list Z) :=
  map codes ["const"; "__const"; "__const__"; "volatile"; "__volatile"; "__volatile__";
             "restrict"; "__restrict"; "__restrict__"; "struct"; "union"; "enum"]%string.
Definition white (c : Z) : Prop := c = 32 \/ 9 <= c <= 13.
(** A word: an identifier (or number etc.) or a sequence of stars. *)
Definition word (w : list Z) : Prop :=
  w <> [] /\ Forall (fun c => c <> 0 /\ ~ white c) w /\
  (Forall (fun c => c <> 42) w \/ Forall (fun c => c = 42) w).
(** A name as a sequence of words, each after some blanks and tabs; only the
    first word need not have any before it; more may follow the last word. *)
Definition spaced (ps : list (list Z * list Z)) (tr : list Z) : Prop :=
  Forall (fun p => Forall (fun c => c = 32 \/ c = 9) (fst p) /\ word (snd p)) ps /\
  Forall (fun p => fst p <> []) (tail ps) /\ Forall (fun c => c = 32 \/ c = 9) tr.
Definition text (ps : list (list Z * list Z)) (tr : list Z) : list Z := concat (map (fun p => fst p ++ snd p) ps) ++ tr.
Definition words (ps : list (list Z * list Z)) : list (list Z) := map snd ps.
Definition name_words (ws : list (list Z)) : list (list Z) :=
  List.filter (fun w => negb (bool_decide (w ∈ qualifiers))) ws.
Fixpoint single_spaced (ws : list (list Z)) : list Z :=
  match ws with [] => [] | [w] => w | w :: ws => w ++ 32 :: single_spaced ws end.

Lemma quals w : w ∈ qualifiers <-> w ∈ keywords.
Proof. assert (qualifiers ≡ₚ keywords) as E by (vm_compute; solve_Permutation). by rewrite E. Qed.
Lemma white_isspace c : isspace c = true <-> white c.
Proof. unfold isspace, white. lia. Qed.
Lemma word_is w : word w -> is_word w.
Proof.
  intros (H1 & H2 & H3). split; [done|]. split; [|done]. eapply Forall_impl; [exact H2|].
  intros c [Ha Hb]. split; [done|]. apply not_true_is_false. by rewrite white_isspace.
Qed.

(** C39: a name made of words and blanks becomes the words that are no C
    qualifiers or tag keywords, in their order, separated by single blanks. *)
Theorem C39_normalize : forall ps tr, spaced ps tr ->
  normalize_type (text ps tr) = Some (single_spaced (name_words (words ps))).
Proof.
  intros ps tr (Hps & Hne & Htr). unfold text. rewrite normalize_ok.
  2:{ unfold nonul. apply Forall_app. split; [|eapply Forall_impl; [exact Htr|]; cbn; intros; lia].
      apply Forall_concat, Forall_map. eapply Forall_impl; [exact Hps|]. intros [b w] [Hb (_ & Hw & _)]. cbn in *.
      apply Forall_app. split; [eapply Forall_impl; [exact Hb|]; cbn; intros; lia|].
      eapply Forall_impl; [exact Hw|]. by intros c [? _]. }
  f_equal. etransitivity; [apply (words_ok tr Htr ps)|].
  - unfold good. eapply Forall_impl; [exact Hps|]. intros p [H1 H2]. split; [exact H1|by apply word_is].
  - done.
  - unfold name_words, words. replace (List.filter not_kw (map snd ps)) with
      (List.filter (fun w => negb (bool_decide (w ∈ qualifiers))) (map snd ps)).
    + generalize (List.filter (fun w => negb (bool_decide (w ∈ qualifiers))) (map snd ps)).
      intros l. induction l as [|w l IH]; [done|]. destruct l; [done|]. cbn [join single_spaced] in *. by rewrite IH.
    + apply List.filter_ext. intros w. unfold not_kw. f_equal. apply bool_decide_ext, quals.
Qed.
Print Assumptions C39_normalize.

(** C39: names with the same words up to qualifiers, keywords and blanks become
    the same name. *)
Corollary C39_qualifiers_irrelevant : forall ps tr ps' tr', spaced ps tr -> spaced ps' tr' ->
  name_words (words ps) = name_words (words ps') ->
  normalize_type (text ps tr) = normalize_type (text ps' tr').
Proof. intros ps tr ps' tr' H H' E. rewrite !C39_normalize by done. by rewrite E. Qed.
Print Assumptions C39_qualifiers_irrelevant.

(** C39: on every string whatsoever the function ends, stays inside the
    string, and the result is not longer, has no white space at its ends and no
    two white characters in a row. *)
Theorem C39_normalize_total : forall s, Forall (fun c => c <> 0) s ->
  exists r, normalize_type s = Some r /\ (length r <= length s)%nat /\
    Forall (fun c => white c -> c = 32) r /\
    (forall c q, r = c :: q -> ~ white c) /\ (forall c q, r = q ++ [c] -> ~ white c) /\
    (forall p c d q, r = p ++ c :: d :: q -> ~ (white c /\ white d)).
Proof.
  intros s Hs. eexists. split; [by apply normalize_ok|].
  assert (Hsq : forall prev x, squeeze_shape prev (squeeze prev x)) by apply squeeze_shape_ok.
  specialize (Hsq false (lstrip (go (Kin keywords) [] s))).
  split; [|split; [|split; [|split]]].
  - etransitivity; [apply squeeze_length|]. cbn. rewrite Nat.add_0_r.
    destruct (lstrip_suffix (go (Kin keywords) [] s)) as [g Hg]. apply (f_equal length) in Hg.
    rewrite app_length, go_length in Hg. cbn in Hg. lia.
  - eapply Forall_impl; [apply Hsq|]. cbn. intros c H. rewrite <- white_isspace. done.
  - intros c q E. rewrite <- white_isspace, not_true_iff_false.
    assert (lstrip (squeeze false (lstrip (go (Kin keywords) [] s))) = squeeze false (lstrip (go (Kin keywords) [] s))) as El
      by apply lstrip_squeeze.
    rewrite E in El. cbn in El. destruct (isspace c); [|done]. exfalso.
    destruct (lstrip_suffix q) as [g Hg]. apply (f_equal length) in El, Hg. rewrite app_length in Hg. cbn in El. lia.
  - intros c q E. rewrite <- white_isspace, not_true_iff_false. by apply Hsq in E.
  - intros p c d q E [Hc Hd]. apply white_isspace in Hc, Hd. by apply (proj2 (proj2 Hsq)) in E; [| |].
Qed.
Print Assumptions C39_normalize_total.

(** C39: normalising twice gives nothing new, as long as the white space is
    blanks and tabs. *)
Theorem C39_idempotent : forall s r, Forall (fun c => c <> 0 /\ ~ (10 <= c <= 13)) s ->
  normalize_type s = Some r -> normalize_type r = Some r.
Proof.
  intros s r Hs E.
  assert (Hn : nonul s) by (eapply Forall_impl; [exact Hs|]; by intros c [? _]).
  assert (Hp : Forall plain s).
  { eapply Forall_impl; [exact Hs|]. intros c [_ Hc] Hw. apply white_isspace in Hw. unfold white in Hw. unfold blank. lia. }
  rewrite normalize_ok in E by done. injection E as <-.
  set (K := Kin keywords). assert (HK : K [] = false) by apply Kin_nil.
  assert (Hg : go K [] (go K [] s) = go K [] s) by (apply go_idem; [constructor|done]).
  assert (Hpg : Forall plain (go K [] s)) by (apply go_plain; [constructor|done]).
  assert (Hl : go K [] (lstrip (go K [] s)) = lstrip (go K [] s)) by (by apply lstrip_fixed).
  rewrite normalize_ok.
  2:{ apply squeeze_nonul. assert (nonul (go K [] s)) as H by (apply go_nonul; [constructor|done]).
      destruct (lstrip_suffix (go K [] s)) as [g Hgg]. rewrite Hgg in H. by apply Forall_app in H as [_ H]. }
  f_equal. fold K.
  destruct (squeeze_fixed K (lstrip (go K [] s)) HK) as [H1 _]; [by apply lstrip_plain|].
  specialize (H1 [] Hl). cbn [app] in H1. rewrite H1, lstrip_squeeze. apply squeeze_squeeze.
Qed.
Print Assumptions C39_idempotent.

(** ... but a line feed is white space to the squeezing loop and no delimiter to
    the keyword loop, so without that restriction the claim is false. *)
Theorem C39_idempotent_refuted : exists s r r',
  Forall (fun c => c <> 0) s /\ normalize_type s = Some r /\ normalize_type r = Some r' /\ r <> r'.
Proof.
  exists (codes "a" ++ [10] ++ codes "const"), (codes "a const"), (codes "a").
  split; [|split; [|split]]; [|vm_compute; reflexivity|vm_compute; reflexivity|vm_compute; discriminate].
  repeat constructor; vm_compute; discriminate.
Qed.
Print Assumptions C39_idempotent_refuted.

(** C39: pointers.  A name that ends in a star loses it and the white space
    before it; any other name is left alone. *)
Theorem C39_pointer : forall base c sp, ~ white c -> Forall white sp ->
  type_is_a_pointer (base ++ [c] ++ sp ++ [42]) = Some (true, base ++ [c]).
Proof.
  intros base c sp Hc Hsp. unfold type_is_a_pointer.
  replace (length (base ++ [c] ++ sp ++ [42])) with (S (length (base ++ [c]) + length sp)) by (rewrite !app_length; cbn; lia).
  rewrite app_assoc.
  rewrite (rd_lu _ _ 42) by (rewrite app_assoc; apply list_lookup_middle; by rewrite (app_length (base ++ [c]))).
  cbn [mbind option_bind]. change (42 =? 42) with true. cbv iota.
  rewrite back_loop_ok; [cbn [mbind option_bind]; by rewrite take_app|..].
  - exists base, c. split; [done|]. apply not_true_is_false. by rewrite white_isspace.
  - eapply Forall_impl; [exact Hsp|]. intros x. apply white_isspace.
Qed.
Print Assumptions C39_pointer.

Theorem C39_not_a_pointer : forall s, (forall q, s <> q ++ [42]) -> type_is_a_pointer s = Some (false, s).
Proof.
  intros s H. unfold type_is_a_pointer. destruct s as [|c s _] using rev_ind; [done|].
  rewrite app_length. cbn [length]. rewrite Nat.add_1_r.
  rewrite (rd_lu _ _ c) by (by apply list_lookup_middle). cbn [mbind option_bind].
  destruct (Z.eqb_spec c 42) as [->|]; [|done]. by destruct (H s).
Qed.
Print Assumptions C39_not_a_pointer.

(** A name that consists of one star (such as what is left of "const *")
    makes the function read in front of the string. *)
Theorem C39_star_only_refuted : exists s,
  normalize_type (codes "const *") = Some s /\ type_is_a_pointer s = None.
Proof. exists (codes "*"). split; vm_compute; reflexivity. Qed.
Print Assumptions C39_star_only_refuted.

(** C39: the two ends meet.  A type registered as "struct foo" (or "union foo",
    "enum foo", "foo") is stored as "foo", and a field declared with any mix of
    qualifiers, an optional tag keyword and the word "foo" is looked up as "foo". *)
Theorem C39_registered_name_found : forall kw foo ps tr,
  word foo -> foo ∉ qualifiers -> Forall (fun c => c <> 42) foo ->
  kw ∈ [codes "struct "; codes "union "; codes "enum "; []] ->
  spaced ps tr -> name_words (words ps) = [foo] ->
  normalize_type (text ps tr) = Some (skip_keywords (kw ++ foo)).
Proof.
  intros kw foo ps tr Hw Hq Hst Hkw Hsp E. rewrite C39_normalize by done. rewrite E. cbn [single_spaced]. f_equal.
  assert (Hno : forall k, skip_keyword k foo = foo).
  { intros k. unfold skip_keyword. destruct (is_prefix (k ++ [32]) foo) eqn:Ep; [|done]. exfalso.
    apply is_prefix_spec in Ep as [y ->]. destruct Hw as (_ & Hw & _). rewrite Forall_forall in Hw.
    destruct (Hw 32) as [_ H]; [|by apply H; left]. rewrite !elem_of_app, elem_of_list_singleton. auto. }
  unfold skip_keywords.
  rewrite !elem_of_cons, elem_of_nil in Hkw. destruct Hkw as [-> |[-> |[-> |[-> |[]]]]].
  - change (codes "struct ") with (kw_struct ++ [32]).
    assert (skip_keyword kw_struct ((kw_struct ++ [32]) ++ foo) = foo) as -> by done. by rewrite !Hno.
  - change (codes "union ") with (kw_union ++ [32]).
    assert (skip_keyword kw_struct ((kw_union ++ [32]) ++ foo) = (kw_union ++ [32]) ++ foo) as -> by done.
    assert (skip_keyword kw_union ((kw_union ++ [32]) ++ foo) = foo) as -> by done. by rewrite Hno.
  - change (codes "enum ") with (kw_enum ++ [32]).
    assert (skip_keyword kw_struct ((kw_enum ++ [32]) ++ foo) = (kw_enum ++ [32]) ++ foo) as -> by done.
    assert (skip_keyword kw_union ((kw_enum ++ [32]) ++ foo) = (kw_enum ++ [32]) ++ foo) as -> by done. done.
  - cbn [app]. by rewrite !Hno.
Qed.
Print Assumptions C39_registered_name_found.

(** *** A case *)
Definition ex_ps : list (list Z * list Z) :=
  [([32], codes "const"); ([32; 9], codes "struct"); ([32], codes "constant"); ([9], codes "*");
   ([32], codes "__restrict__"); ([32; 32], codes "**"); ([32], codes "volatile")].
Definition ex_ps2 : list (list Z * list Z) :=
  [([], codes "constant"); ([32], codes "*"); ([32], codes "enum"); ([32], codes "**")].
Definition ex_ps3 : list (list Z * list Z) :=
  [([], codes "struct"); ([32], codes "foo"); ([32; 9], codes "const")].
Lemma spaced_dec ps tr :
  forallb (fun p => forallb (fun c => (c =? 32) || (c =? 9)) (fst p) && negb (Nat.eqb (length (snd p)) 0) &&
    forallb (fun c => negb (c =? 0) && negb (isspace c)) (snd p) &&
    (forallb (fun c => negb (c =? 42)) (snd p) || forallb (fun c => c =? 42) (snd p))) ps &&
  forallb (fun p => negb (Nat.eqb (length (fst p)) 0)) (tail ps) && forallb (fun c => (c =? 32) || (c =? 9)) tr = true ->
  spaced ps tr.
Proof.
  rewrite !andb_true_iff, !forallb_forall. intros [[H1 H2] H3]. split; [|split].
  - apply Forall_forall. intros p Hp. apply elem_of_list_In in Hp. apply H1 in Hp.
    rewrite !andb_true_iff, orb_true_iff, !forallb_forall in Hp. destruct Hp as [[[Ha Hb] Hc] Hd].
    split; [apply Forall_forall; intros c Hcc; apply elem_of_list_In in Hcc; apply Ha in Hcc; lia|].
    split; [destruct (snd p); [done|done]|]. split.
    + apply Forall_forall. intros c Hcc. apply elem_of_list_In in Hcc. apply Hc in Hcc.
      rewrite <- white_isspace. destruct (isspace c); [lia|]. split; [lia|done].
    + destruct Hd as [Hd|Hd]; [left|right]; apply Forall_forall; intros c Hcc; apply elem_of_list_In in Hcc; apply Hd in Hcc; lia.
  - apply Forall_forall. intros p Hp. apply elem_of_list_In in Hp. apply H2 in Hp. by destruct (fst p).
  - apply Forall_forall. intros c Hcc. apply elem_of_list_In in Hcc. apply H3 in Hcc. lia.
Qed.
Example C39_case :
  spaced ex_ps [9] /\ spaced ex_ps2 [] /\ spaced ex_ps3 [32] /\
  name_words (words ex_ps) = name_words (words ex_ps2) /\ name_words (words ex_ps3) = [codes "foo"] /\
  normalize_type (text ex_ps [9]) = Some (codes "constant * **") /\
  normalize_type (text ex_ps2 []) = Some (codes "constant * **") /\
  type_is_a_pointer (codes "constant * **") = Some (true, codes "constant * *") /\
  type_is_a_pointer (codes "constant * *") = Some (true, codes "constant *") /\
  type_is_a_pointer (codes "constant *") = Some (true, codes "constant") /\
  normalize_type (text ex_ps3 [32]) = Some (skip_keywords (codes "struct foo")).
Proof.
  split; [by apply spaced_dec|]. split; [by apply spaced_dec|]. split; [by apply spaced_dec|].
  repeat split; vm_compute; reflexivity.
Qed.
