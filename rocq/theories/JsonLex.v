(** The lexer on the lexemes mr_json_save prints. *)
From Verif Require Import Base NumStr NumStrProof Enum Quote QuoteProof Json LexProof.
Local Open Scope Z_scope.

Notation jlexes := (lexes json_rules).

(** What follows a lexeme. *)
Definition stop (rest : list Z) : Prop := exists r, rest = 44 :: r \/ rest = 10 :: r.

(** White space. *)
Lemma select_space c rest : isspace c = true ->
  select json_rules (c :: rest) None = Some (S (run isspace rest), fun _ => Some None).
Proof.
  intros Hc. assert (c = 32 \/ c = 9 \/ c = 10 \/ c = 11 \/ c = 12 \/ c = 13) as H by (unfold isspace in Hc; lia).
  destruct H as [-> | [-> | [-> | [-> | [-> | ->]]]]]; reflexivity.
Qed.

(** Punctuation and words. *)
Lemma lexes_punct c t rest ts : (c, t) ∈ [(58, TColon); (123, TLBrace); (125, TRBrace); (91, TLBracket); (93, TRBracket); (44, TComma)] ->
  jlexes rest ts -> jlexes (c :: rest) (t :: ts).
Proof.
  intros H R. change (c :: rest) with ([c] ++ rest). change (t :: ts) with (put (Some t) ts).
  refine (lexes_tok json_rules [c] rest (fun _ => Some (Some t)) (Some t) ts _ _ eq_refl R).
  - rewrite !elem_of_cons, elem_of_nil in H.
    destruct H as [[= -> ->] | [[= -> ->] | [[= -> ->] | [[= -> ->] | [[= -> ->] | [[= -> ->] | []]]]]]]; reflexivity.
  - discriminate.
Qed.

Lemma lexes_word w t rest ts : (w, t) ∈ [(txt_null, TNull); (txt_false, TNum (LInt 0)); (txt_true, TNum (LInt 1))] ->
  jlexes rest ts -> jlexes (w ++ rest) (t :: ts).
Proof.
  intros H R. change (t :: ts) with (put (Some t) ts).
  refine (lexes_tok json_rules w rest (fun _ => Some (Some t)) (Some t) ts _ _ eq_refl R).
  - rewrite !elem_of_cons, elem_of_nil in H. destruct H as [[= -> ->] | [[= -> ->] | [[= -> ->] | []]]]; reflexivity.
  - rewrite !elem_of_cons, elem_of_nil in H. destruct H as [[= -> ->] | [[= -> ->] | [[= -> ->] | []]]]; discriminate.
Qed.

(** The selection from the matches of the rules. *)
Record others (text : list Z) : Prop := Others {
  o1 : m_lit txt_null text = None; o2 : m_lit txt_false text = None; o3 : m_lit txt_true text = None;
  o7 : m_space text = None; o8 : m_lit [58] text = None; o9 : m_lit [123] text = None; o10 : m_lit [125] text = None;
  o11 : m_lit [91] text = None; o12 : m_lit [93] text = None; o13 : m_lit [44] text = None; o14 : m_any text = Some 1%nat }.

Ltac rest_none O := rewrite (select_none _ _ _ _ _ (o7 _ O)), (select_none _ _ _ _ _ (o8 _ O)), (select_none _ _ _ _ _ (o9 _ O)),
  (select_none _ _ _ _ _ (o10 _ O)), (select_none _ _ _ _ _ (o11 _ O)), (select_none _ _ _ _ _ (o12 _ O)), (select_none _ _ _ _ _ (o13 _ O)).

Lemma select_string text n : others text -> m_int text = None -> m_float text = None -> m_string text = Some n -> (1 <= n)%nat ->
  select json_rules text None = Some (n, fun txt => Some (Some (TStr (take (length txt - 2) (drop 1 txt))))).
Proof.
  intros O Ei Ef Es L. unfold json_rules.
  rewrite (select_none _ _ _ _ _ (o1 _ O)), (select_none _ _ _ _ _ (o2 _ O)), (select_none _ _ _ _ _ (o3 _ O)), (select_none _ _ _ _ _ Ei), (select_none _ _ _ _ _ Ef).
  rewrite (select_first _ _ _ _ _ Es). rest_none O. by rewrite (select_keep _ _ _ _ _ _ _ (o14 _ O)).
Qed.
Lemma select_int text n m : others text -> m_int text = Some n -> m_float text = Some m -> m_string text = None -> (1 <= n)%nat -> (m <= n)%nat ->
  select json_rules text None = Some (n, int_token).
Proof.
  intros O Ei Ef Es L Lm. unfold json_rules.
  rewrite (select_none _ _ _ _ _ (o1 _ O)), (select_none _ _ _ _ _ (o2 _ O)), (select_none _ _ _ _ _ (o3 _ O)).
  rewrite (select_first _ _ _ _ _ Ei), (select_keep _ _ _ _ _ _ _ Ef Lm), (select_none _ _ _ _ _ Es). rest_none O. by rewrite (select_keep _ _ _ _ _ _ _ (o14 _ O)).
Qed.
Lemma select_float text a m : others text -> m_int text = a -> match a with Some n => (n < m)%nat | None => True end ->
  m_float text = Some m -> m_string text = None -> (1 <= m)%nat ->
  select json_rules text None = Some (m, fun txt => Some (Some (TNum (LFloat txt)))).
Proof.
  intros O Ei La Ef Es L. unfold json_rules.
  rewrite (select_none _ _ _ _ _ (o1 _ O)), (select_none _ _ _ _ _ (o2 _ O)), (select_none _ _ _ _ _ (o3 _ O)).
  destruct a as [n|].
  - rewrite (select_first _ _ _ _ _ Ei), (select_longer _ _ _ _ _ _ _ Ef La), (select_none _ _ _ _ _ Es). rest_none O. by rewrite (select_keep _ _ _ _ _ _ _ (o14 _ O)).
  - rewrite (select_none _ _ _ _ _ Ei), (select_first _ _ _ _ _ Ef), (select_none _ _ _ _ _ Es). rest_none O. by rewrite (select_keep _ _ _ _ _ _ _ (o14 _ O)).
Qed.

(** Strings. *)
Lemma lexes_string content rest ts : lex_literal 34 (content ++ 34 :: rest) = Some (content, rest) ->
  jlexes rest ts -> jlexes (34 :: content ++ 34 :: rest) (TStr content :: ts).
Proof.
  intros E R. replace (34 :: content ++ 34 :: rest) with ((34 :: content ++ [34]) ++ rest) by (cbn; by rewrite <- app_assoc).
  change (TStr content :: ts) with (put (Some (TStr content)) ts).
  refine (lexes_tok json_rules _ rest (fun txt => Some (Some (TStr (take (length txt - 2) (drop 1 txt))))) (Some (TStr content)) ts _ _ _ R).
  - cbn [app]. rewrite <- app_assoc. cbn [app].
    rewrite (select_string _ (length content + 2)).
    + cbn [length]. rewrite app_length. cbn [length]. do 2 f_equal. lia.
    + split; reflexivity.
    + reflexivity.
    + reflexivity.
    + cbn [m_string]. rewrite E. reflexivity.
    + lia.
  - discriminate.
  - cbn [length drop]. rewrite app_length. cbn [length]. replace (S (length content + 1) - 2)%nat with (length content) by lia. rewrite drop_0. by rewrite take_app.
Qed.

(** Numbers. *)
Lemma others_num c rest : dig c \/ c = 45 -> others (c :: rest).
Proof.
  intros H. assert (forall x, x <> c -> forall l, m_lit (x :: l) (c :: rest) = None) as N.
  { intros x Nx l. cbn [m_lit]. by rewrite (proj2 (Z.eqb_neq x c)). }
  unfold dig in H.
  split; try (apply N; lia).
  - unfold m_space. cbn [run]. replace (isspace c) with false by (unfold isspace; lia). done.
  - unfold m_any. by rewrite (proj2 (Z.eqb_neq c 10)) by lia.
Qed.

Definition sgn (neg : bool) : list Z := if neg then [45] else [].

Lemma sign_len neg c rest : dig c -> m_sign (sgn neg ++ c :: rest) = length (sgn neg) /\ drop (length (sgn neg)) (sgn neg ++ c :: rest) = c :: rest.
Proof.
  intros H. destruct neg; [done|]. cbn [sgn app length drop m_sign]. unfold dig in H.
  by replace ((c =? 43) || (c =? 45)) with false by lia.
Qed.

Lemma m_int_ok neg ds rest : ds <> [] -> Forall dig ds -> match rest with c :: _ => ~ dig c | [] => True end ->
  m_int (sgn neg ++ ds ++ rest) = Some (length (sgn neg ++ ds)).
Proof.
  intros N F H. unfold m_int. destruct ds as [|c ds]; [done|]. cbn [app]. pose proof F as F0. apply Forall_cons in F as [Hc F].
  destruct (sign_len neg c (ds ++ rest) Hc) as [-> ->].
  change (c :: ds ++ rest) with ((c :: ds) ++ rest). rewrite (run_digits (c :: ds) rest F0 H). cbn [length]. by rewrite app_length.
Qed.

Lemma m_string_num neg c rest : dig c -> m_string (sgn neg ++ c :: rest) = None.
Proof. intros H. destruct neg; cbn; [done|]. unfold dig in H. destruct c as [|p|p]; [done| |done]. repeat (destruct p as [p|p|]; try reflexivity; try lia). Qed.

Lemma m_word_num neg c rest w : dig c -> w = [110; 97; 110] \/ w = [105; 110; 102] -> m_word w (sgn neg ++ c :: rest) = None.
Proof.
  intros H Hw. unfold m_word. destruct (sign_len neg c rest H) as [-> ->]. unfold dig in H.
  destruct Hw as [-> | ->]; cbn [m_nocase].
  - by replace ((110 =? c) || (110 - 32 =? c)) with false by lia.
  - by replace ((105 =? c) || (105 - 32 =? c)) with false by lia.
Qed.

Definition frac (fs : list Z) : Prop := fs = [] \/ exists l, fs = 46 :: l /\ Forall dig l.
Definition expo (es : list Z) : Prop := es = [] \/ exists s l, es = 101 :: s ++ l /\ (s = [43] \/ s = [45]) /\ l <> [] /\ Forall dig l.

Lemma stop_head rest : stop rest -> exists c r, rest = c :: r /\ (c = 44 \/ c = 10).
Proof. intros (r & [-> | ->]); eauto. Qed.

Lemma m_float_ok neg ds fs es rest : ds <> [] -> Forall dig ds -> frac fs -> expo es -> stop rest ->
  m_float (sgn neg ++ ds ++ fs ++ es ++ rest) = Some (length (sgn neg ++ ds) + length fs + length es)%nat /\
  m_int (sgn neg ++ ds ++ fs ++ es ++ rest) = Some (length (sgn neg ++ ds)).
Proof.
  intros N F Hf He Hs. destruct (stop_head _ Hs) as (c & r & -> & Hc).
  assert (match fs ++ es ++ c :: r with x :: _ => ~ dig x | [] => True end) as H1.
  { destruct Hf as [-> | (l & -> & _)]; [|cbn; unfold dig; lia]. destruct He as [-> | (s & l & -> & _)]; cbn; unfold dig; lia. }
  assert (match es ++ c :: r with x :: _ => ~ dig x | [] => True end) as H2.
  { destruct He as [-> | (s & l & -> & _)]; cbn; unfold dig; lia. }
  pose proof (m_int_ok neg ds _ N F H1) as Ei. split; [|exact Ei].
  unfold m_float. destruct ds as [|d ds]; [done|]. pose proof F as F0. apply Forall_cons in F as [Hd F].
  cbn [app] in *. rewrite !m_word_num by auto. unfold m_decimal. rewrite Ei. cbn [mbind option_bind].
  replace (drop (length (sgn neg ++ d :: ds)) (sgn neg ++ d :: ds ++ fs ++ es ++ c :: r)) with (fs ++ es ++ c :: r).
  2: { change (sgn neg ++ d :: ds ++ fs ++ es ++ c :: r) with (sgn neg ++ (d :: ds) ++ fs ++ es ++ c :: r). by rewrite (app_assoc (sgn neg)), drop_app. }
  assert (match fs ++ es ++ c :: r with 46 :: t' => S (run isdigit t') | _ => 0%nat end = length fs) as E1.
  { destruct Hf as [-> | (l & -> & Hl)].
    - cbn [app]. destruct He as [-> | (s & l & -> & _)]; [|done]. destruct Hc as [-> | ->]; done.
    - cbn [app length]. f_equal. by apply run_digits. }
  rewrite E1. rewrite drop_app. do 2 f_equal.
  destruct He as [-> | (s & l & -> & Hs' & Nl & Hl)].
  - cbn [app]. destruct Hc as [-> | ->]; done.
  - cbn [app orb Z.eqb Pos.eqb]. rewrite <- app_assoc.
    assert (m_int (s ++ l ++ c :: r) = Some (length (s ++ l))) as ->; [|done].
    unfold m_int. assert (m_sign (s ++ l ++ c :: r) = length s /\ drop (length s) (s ++ l ++ c :: r) = l ++ c :: r) as [-> ->].
    { destruct Hs' as [-> | ->]; done. }
    rewrite run_digits; [|done|unfold dig; lia]. rewrite app_length. destruct l; [done|]. done.
Qed.

(** The value of a numeral without leading zeros. *)
Definition plain (ds : list Z) : Prop := ds <> [] /\ Forall dig ds /\ (head ds = Some 48 -> ds = [48]).

Lemma plain_decimal ds : plain ds -> decimal_text ds (numeral_value 10 ds).
Proof.
  intros (N & F & H). split; [done|]. split; [|done]. eapply Forall_impl; [exact F|]. intros c Hc.
  apply isdigit_in. by apply isdigit_dig.
Qed.
Lemma decimal_plain ds v : decimal_text ds v -> plain ds /\ numeral_value 10 ds = v.
Proof.
  intros (N & F & H & L). split; [|done]. split; [done|]. split; [|done]. eapply Forall_impl; [exact F|].
  intros c Hc. apply isdigit_dig. by apply isdigit_in.
Qed.

Lemma lexes_int neg ds rest ts : plain ds -> stop rest -> jlexes rest ts ->
  jlexes ((sgn neg ++ ds) ++ rest) (TNum (LInt (to_signed ((if neg then - numeral_value 10 ds else numeral_value 10 ds) mod 2 ^ 128))) :: ts).
Proof.
  intros P Hs R. pose proof P as (N & F & _).
  destruct (m_float_ok neg ds [] [] rest N F (or_introl eq_refl) (or_introl eq_refl) Hs) as [Ef Ei]. cbn [app length] in Ef, Ei. rewrite !Nat.add_0_r in Ef.
  refine (lexes_tok json_rules _ rest int_token (Some (TNum _)) ts _ _ _ R).
  - rewrite <- app_assoc. destruct ds as [|d ds]; [done|]. apply Forall_cons in F as [Hd F].
    eapply select_int; [|exact Ei|exact Ef| |rewrite app_length; cbn; lia|done].
    + destruct neg; cbn [sgn app]; apply others_num; [by right|by left].
    + cbn [app]. by apply m_string_num.
  - destruct neg, ds; done.
  - unfold int_token. pose proof (parse_decimal neg ds _ [] 0 (plain_decimal ds P) (or_introl eq_refl)) as E.
    replace ((sgn neg ++ ds) ++ [0]) with ((if neg then [45] else []) ++ ds ++ 0 :: []) by (rewrite <- app_assoc; done).
    rewrite E. done.
Qed.

Lemma lexes_float neg ds fs es rest ts : ds <> [] -> Forall dig ds -> frac fs -> expo es -> fs <> [] \/ es <> [] -> stop rest -> jlexes rest ts ->
  jlexes ((sgn neg ++ ds ++ fs ++ es) ++ rest) (TNum (LFloat (sgn neg ++ ds ++ fs ++ es)) :: ts).
Proof.
  intros N F Hf He Ne Hs R.
  destruct (m_float_ok neg ds fs es rest N F Hf He Hs) as [Ef Ei].
  refine (lexes_tok json_rules _ rest (fun txt => Some (Some (TNum (LFloat txt)))) (Some (TNum _)) ts _ _ eq_refl R).
  - rewrite <- !app_assoc. destruct ds as [|d ds]; [done|]. apply Forall_cons in F as [Hd F].
    erewrite (select_float _ _ (length (sgn neg ++ d :: ds) + length fs + length es)%nat); [|idtac|exact Ei|idtac..].
    + rewrite !app_length. f_equal. f_equal. cbn. lia.
    + destruct neg; cbn [sgn app]; apply others_num; [by right|by left].
    + destruct Ne as [Ne|Ne]; [destruct fs|destruct es]; cbn; try done; lia.
    + exact Ef.
    + cbn [app]. by apply m_string_num.
    + rewrite app_length. cbn. lia.
  - destruct neg, ds; done.
Qed.

Lemma lexes_special neg w rest ts : w = [110; 97; 110] \/ w = [105; 110; 102] -> jlexes rest ts ->
  jlexes ((sgn neg ++ w) ++ rest) (TNum (LFloat (sgn neg ++ w)) :: ts).
Proof.
  intros Hw R.
  refine (lexes_tok json_rules _ rest (fun txt => Some (Some (TNum (LFloat txt)))) (Some (TNum _)) ts _ _ eq_refl R).
  - destruct Hw as [-> | ->], neg; cbn [sgn app];
    (eapply (select_float _ None); [split; reflexivity|reflexivity|done|reflexivity|reflexivity|cbn; lia]).
  - destruct neg, Hw as [-> | ->]; done.
Qed.
