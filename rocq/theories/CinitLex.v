(** The lexer on the lexemes mr_cinit_save prints. *)
From Verif Require Import Base NumStr NumStrProof Enum Quote QuoteProof Value ValueProof Json Cinit LexProof JsonLex JsonSpec CinitSpec.
Local Open Scope Z_scope.

(** A rule wins when the earlier ones match less and the later ones not more. *)
Lemma select_keep_all {T} (rules : list ((list Z -> option nat) * (list Z -> option T))) text n act :
  Forall (fun r => match r.1 text with None => True | Some k => (k <= n)%nat end) rules ->
  select rules text (Some (n, act)) = Some (n, act).
Proof.
  induction 1 as [|[m a] rules H _ IH]; [done|]. cbn [fst] in H. destruct (m text) as [k|] eqn:E.
  - by rewrite (select_keep m a rules text k n act E H).
  - by rewrite (select_none m a rules text _ E).
Qed.
Lemma select_best {T} (pre post : list ((list Z -> option nat) * (list Z -> option T))) m act text n : m text = Some n ->
  Forall (fun r => match r.1 text with None => True | Some k => (k < n)%nat end) pre ->
  Forall (fun r => match r.1 text with None => True | Some k => (k <= n)%nat end) post ->
  select (pre ++ (m, act) :: post) text None = Some (n, act).
Proof.
  intros E H P.
  assert (forall best, match best with None => True | Some (k, _) => (k < n)%nat end -> select (pre ++ (m, act) :: post) text best = Some (n, act)) as G; [|by apply G].
  induction H as [|[m' a'] pre H _ IH]; intros best Hb; cbn [app].
  - destruct best as [[k a]|]; [rewrite (select_longer m act post text n k a E Hb)|rewrite (select_first m act post text n E)]; by apply select_keep_all.
  - cbn [fst] in H. destruct (m' text) as [k|] eqn:Ek.
    + destruct best as [[k' a'']|].
      * destruct (decide (k' < k)%nat).
        -- rewrite (select_longer m' a' _ text k k' a'' Ek) by done. by apply IH.
        -- rewrite (select_keep m' a' _ text k k' a'' Ek) by lia. by apply IH.
      * rewrite (select_first m' a' _ text k Ek). by apply IH.
    + rewrite (select_none m' a' _ text best Ek). by apply IH.
Qed.

Section Lex.
  Context {F : Type} `{FL : Floats F}.
  Notation clexes := (lexes (cinit_rules (F := F))).

  (** What follows a lexeme. *)
  Definition cstop (rest : list Z) : Prop := exists c r, rest = c :: r /\ (c = 44 \/ c = 10 \/ c = 32).

  Lemma cselect_space c rest : isspace c = true ->
    select cinit_rules (c :: rest) None = Some (S (run isspace rest), fun _ => Some None).
  Proof.
    intros Hc. assert (c = 32 \/ c = 9 \/ c = 10 \/ c = 11 \/ c = 12 \/ c = 13) as H by (unfold isspace in Hc; lia).
    destruct H as [-> | [-> | [-> | [-> | [-> | ->]]]]]; reflexivity.
  Qed.

  Lemma clexes_space c rest ts : isspace c = true -> clexes rest ts -> clexes (c :: rest) ts.
  Proof. apply lexes_space. apply cselect_space. Qed.
  Lemma clexes_spaces n rest ts : clexes rest ts -> clexes (spaces n ++ rest) ts.
  Proof. apply lexes_spaces. apply cselect_space. Qed.

  Lemma clexes_punct c t rest ts :
    (c, t) ∈ [(123, CtLBrace); (125, CtRBrace); (44, CtComma); (46, CtDot); (61, CtAssign); (124, CtOp OpOr)] ->
    clexes rest ts -> clexes (c :: rest) (t :: ts).
  Proof.
    intros H R. change (c :: rest) with ([c] ++ rest). change (t :: ts) with (put (Some t) ts).
    refine (lexes_tok cinit_rules [c] rest (fun _ => Some (Some t)) (Some t) ts _ _ eq_refl R).
    - rewrite !elem_of_cons, elem_of_nil in H.
      destruct H as [[= -> ->] | [[= -> ->] | [[= -> ->] | [[= -> ->] | [[= -> ->] | [[= -> ->] | []]]]]]]; reflexivity.
    - discriminate.
  Qed.

  Lemma clexes_word w t rest ts : (w, t) ∈ [(txt_NULL, CtNull); (txt_false, CtNum (Num 0)); (txt_true, CtNum (Num 1))] -> cstop rest ->
    clexes rest ts -> clexes (w ++ rest) (t :: ts).
  Proof.
    intros H (c & r & Er & Hc) R. change (t :: ts) with (put (Some t) ts).
    refine (lexes_tok cinit_rules w rest (fun _ => Some (Some t)) (Some t) ts _ _ eq_refl R).
    - clear R. rewrite !elem_of_cons, elem_of_nil in H. subst rest.
      destruct H as [[= -> ->] | [[= -> ->] | [[= -> ->] | []]]]; destruct Hc as [-> | [-> | ->]]; reflexivity.
    - rewrite !elem_of_cons, elem_of_nil in H. destruct H as [[= -> ->] | [[= -> ->] | [[= -> ->] | []]]]; discriminate.
  Qed.

  (** Rules that look at the first character. *)
  Lemma m_lit_head x l (c : Z) (t : list Z) : x <> c -> m_lit (x :: l) (c :: t) = None.
  Proof. intros N. cbn [m_lit]. by rewrite (proj2 (Z.eqb_neq x c)). Qed.
  Lemma m_nocase_head x l (c : Z) (t : list Z) : x <> c -> x - 32 <> c -> m_nocase (x :: l) (c :: t) = None.
  Proof. intros N M. cbn [m_nocase]. by rewrite (proj2 (Z.eqb_neq x c)), (proj2 (Z.eqb_neq (x - 32) c)). Qed.
  Lemma m_space_head (c : Z) (t : list Z) : isspace c = false -> m_space (c :: t) = None.
  Proof. intros N. unfold m_space. cbn [run]. by rewrite N. Qed.
  Lemma m_id_head (c : Z) (t : list Z) : isid c = false -> m_id (c :: t) = None.
  Proof. intros N. cbn [m_id]. by rewrite N. Qed.
  Lemma m_quoted_head q (c : Z) (t : list Z) : c <> q -> m_quoted q (c :: t) = None.
  Proof. intros N. cbn [m_quoted]. by rewrite (proj2 (Z.eqb_neq c q)). Qed.
  Lemma m_cast_head (c : Z) (t : list Z) : c <> 40 -> m_cast (c :: t) = None.
  Proof. intros N. unfold m_cast, m_seq at 1. by rewrite m_lit_head. Qed.
  Lemma m_attr_head (c : Z) (t : list Z) : c <> 47 -> m_attr (c :: t) = None.
  Proof. intros N. unfold m_attr, m_seq at 1. by rewrite m_lit_head. Qed.
  Lemma m_comment_head (c : Z) (t : list Z) : c <> 47 -> m_comment (c :: t) = None.
  Proof.
    intros N. unfold m_comment. destruct c as [|p|p]; [done| |done]. repeat (destruct p as [p|p|]; try reflexivity; try lia).
  Qed.
  Lemma m_any_head (c : Z) (t : list Z) : match m_any (c :: t) with None => True | Some k => (k <= 1)%nat end.
  Proof. unfold m_any. destruct (c =? 10); [done|lia]. Qed.
  Lemma hex_head (c : Z) (t : list Z) : c <> 48 -> m_hex (c :: t) = None /\ m_oct (c :: t) = None.
  Proof.
    intros N. unfold m_hex, m_oct. destruct c as [|p|p]; [done| |done]. repeat (destruct p as [p|p|]; try (split; reflexivity); try lia).
  Qed.
  Lemma m_uint_head (c : Z) (t : list Z) : isdigit c = false -> m_uint (c :: t) = None.
  Proof. intros N. unfold m_uint. cbn [run]. by rewrite N. Qed.
  Lemma m_number_head (c : Z) (t : list Z) : isdigit c = false -> m_number (c :: t) = None.
  Proof.
    intros N. unfold m_number. assert (c <> 48) as N48 by (intros ->; done). destruct (hex_head c t N48) as [-> ->]. by rewrite m_uint_head.
  Qed.
  Lemma m_imag_head (c : Z) (t : list Z) : isdigit c = false -> m_imag (c :: t) = None.
  Proof. intros N. unfold m_imag, m_udecimal. by rewrite m_uint_head. Qed.

  (** Numbers. *)
  Lemma m_uint_ok ds rest : ds <> [] -> Forall dig ds -> match rest with c :: _ => ~ dig c | [] => True end -> m_uint (ds ++ rest) = Some (length ds).
  Proof. intros N Fd H. unfold m_uint. rewrite run_digits by done. by destruct ds. Qed.

  Lemma m_number_ok ds rest : plain ds -> match rest with c :: _ => ~ dig c /\ c <> 120 /\ c <> 88 /\ c <> 91 | [] => True end ->
    m_number (ds ++ rest) = Some (length ds).
  Proof.
    intros (N & Fd & Hz) H. unfold m_number. rewrite m_uint_ok; [|done..|destruct rest; [done|by destruct H]].
    destruct ds as [|d ds]; [done|]. cbn [app]. destruct (decide (d = 48)) as [->|Nd].
    - injection (Hz eq_refl) as ->. destruct rest as [|c r]; [done|]. cbn [app m_hex m_oct]. destruct H as (H1 & H2 & H3 & H4). unfold dig in H1.
      rewrite (proj2 (Z.eqb_neq c 120)), (proj2 (Z.eqb_neq c 88)), (proj2 (Z.eqb_neq c 91)) by done. cbn [orb].
      replace ((48 <=? c) && (c <=? 55)) with false by lia. done.
    - destruct (hex_head d (ds ++ rest) Nd) as [-> ->]. done.
  Qed.

  Lemma m_udecimal_ok ds fs es rest : ds <> [] -> Forall dig ds -> frac fs -> expo es -> cstop rest ->
    m_udecimal (ds ++ fs ++ es ++ rest) = Some (length ds + length fs + length es)%nat.
  Proof.
    intros N Fd Hf He (c & r & -> & Hc).
    assert (match fs ++ es ++ c :: r with x :: _ => ~ dig x | [] => True end) as H1.
    { destruct Hf as [-> | (l & -> & _)]; [|cbn; unfold dig; lia]. destruct He as [-> | (s & l & -> & _)]; cbn; unfold dig; lia. }
    assert (match es ++ c :: r with x :: _ => ~ dig x | [] => True end) as H2.
    { destruct He as [-> | (s & l & -> & _)]; cbn; unfold dig; lia. }
    unfold m_udecimal. rewrite m_uint_ok by done. cbn [mbind option_bind]. rewrite drop_app.
    assert (match fs ++ es ++ c :: r with 46 :: t' => S (run isdigit t') | _ => 0%nat end = length fs) as E1.
    { destruct Hf as [-> | (l & -> & Hl)].
      - cbn [app]. destruct He as [-> | (s & l & -> & _)]; [|done]. destruct Hc as [-> | [-> | ->]]; done.
      - cbn [app length]. f_equal. by apply run_digits. }
    rewrite E1. rewrite drop_app. do 2 f_equal.
    destruct He as [-> | (s & l & -> & Hs' & Nl & Hl)].
    - cbn [app]. destruct Hc as [-> | [-> | ->]]; done.
    - cbn [app orb Z.eqb Pos.eqb]. rewrite <- app_assoc.
      assert (m_int (s ++ l ++ c :: r) = Some (length (s ++ l))) as ->; [|done].
      unfold m_int. assert (m_sign (s ++ l ++ c :: r) = length s /\ drop (length s) (s ++ l ++ c :: r) = l ++ c :: r) as [-> ->].
      { destruct Hs' as [-> | ->]; done. }
      rewrite run_digits; [|done|unfold dig; lia]. rewrite app_length. destruct l; [done|]. done.
  Qed.

  Lemma m_cfloat_ok ds fs es rest : ds <> [] -> Forall dig ds -> frac fs -> expo es -> cstop rest ->
    m_cfloat (ds ++ fs ++ es ++ rest) = Some (length ds + length fs + length es)%nat /\
    m_imag (ds ++ fs ++ es ++ rest) = None.
  Proof.
    intros N Fd Hf He Hs. pose proof (m_udecimal_ok ds fs es rest N Fd Hf He Hs) as E. split.
    - unfold m_cfloat. rewrite E. destruct ds as [|d ds]; [done|]. apply Forall_cons in Fd as [Hd Fd]. cbn [app].
      pose proof (fun w => m_word_num false d (ds ++ fs ++ es ++ rest) w Hd) as W. cbn [sgn app] in W. rewrite !W by auto. done.
    - unfold m_imag. rewrite E. cbn [mbind option_bind].
      replace (drop (length ds + length fs + length es) (ds ++ fs ++ es ++ rest)) with rest.
      2:{ rewrite !app_assoc. rewrite drop_app_alt; [done|]. rewrite !app_length. lia. }
      destruct Hs as (c & r & -> & Hc). destruct Hc as [-> | [-> | ->]]; done.
  Qed.

  (** The rules other than those for numbers. *)
  Lemma digit_pre (c : Z) (t : list Z) n : dig c -> Forall (fun r => match r.1 (c :: t) with None => True | Some k => (k < n)%nat end)
    (take 7 (cinit_rules (F := F))).
  Proof.
    intros H. unfold dig in H. unfold cinit_rules. cbn [take].
    constructor; [cbn [fst]; rewrite m_space_head; [done|unfold isspace; lia]|].
    do 5 (constructor; [cbn [fst]; unfold txt_NULL, txt_false, txt_true; rewrite m_lit_head; [done|lia]|]).
    constructor; [|constructor]. cbn [fst]. by rewrite m_nocase_head by lia.
  Qed.
  Lemma digit_post (c : Z) (t : list Z) n : dig c -> (1 <= n)%nat -> Forall (fun r => match r.1 (c :: t) with None => True | Some k => (k <= n)%nat end)
    (drop 10 (cinit_rules (F := F))).
  Proof.
    intros H Hn. unfold dig in H. unfold cinit_rules. cbn [drop].
    constructor; [cbn [fst]; rewrite m_id_head; [done|unfold isid, isalpha, isupper, islower; lia]|].
    do 2 (constructor; [cbn [fst]; rewrite m_quoted_head; [done|lia]|]).
    constructor; [cbn [fst]; rewrite m_cast_head; [done|lia]|].
    constructor; [cbn [fst]; rewrite m_attr_head; [done|lia]|].
    constructor; [cbn [fst]; rewrite m_comment_head; [done|lia]|].
    do 15 (constructor; [cbn [fst]; rewrite m_lit_head; [done|lia]|]).
    constructor; [|constructor]. cbn [fst]. pose proof (m_any_head c t). destruct (m_any (c :: t)); [lia|done].
  Qed.

  Lemma cstop_head rest : cstop rest -> match rest with c :: _ => ~ dig c /\ c <> 120 /\ c <> 88 /\ c <> 91 | [] => True end.
  Proof. intros (c & r & -> & Hc). unfold dig. lia. Qed.

  Lemma clexes_uint ds rest ts : plain ds -> cstop rest -> clexes rest ts ->
    clexes (ds ++ rest) (CtNum (Num (numeral_value 10 ds mod 2 ^ 128)) :: ts).
  Proof.
    intros P Hs R. pose proof P as (N & Fd & _).
    refine (lexes_tok cinit_rules ds rest cinit_int (Some (CtNum _)) ts _ N _ R).
    - pose proof (m_number_ok ds rest P (cstop_head _ Hs)) as En.
      destruct (m_cfloat_ok ds [] [] rest N Fd (or_introl eq_refl) (or_introl eq_refl) Hs) as [Ef Ei]. cbn [app length] in Ef, Ei. rewrite !Nat.add_0_r in Ef.
      destruct ds as [|d ds]; [done|]. apply Forall_cons in Fd as [Hd Fd]. cbn [app] in *.
      change cinit_rules with (take 7 (cinit_rules (F := F)) ++ (m_number, cinit_int) :: drop 8 cinit_rules).
      apply select_best; [done|by apply digit_pre|].
      change (drop 8 (cinit_rules (F := F))) with ([nth 8 (cinit_rules (F := F)) (m_any, cinit_int); nth 9 (cinit_rules (F := F)) (m_any, cinit_int)] ++ drop 10 (cinit_rules (F := F))).
      apply Forall_app. split; [|apply digit_post; [done|cbn; lia]].
      constructor; [cbn [nth cinit_rules fst]; by rewrite Ef|]. constructor; [|constructor]. cbn [nth cinit_rules fst]. by rewrite Ei.
    - unfold cinit_int. pose proof (parse_decimal false ds _ [] 0 (plain_decimal ds P) (or_introl eq_refl)) as E. cbn [app] in E. rewrite E. done.
  Qed.

  Lemma clexes_ufloat ds fs es rest ts : plain ds -> frac fs -> expo es -> fs <> [] \/ es <> [] -> cstop rest -> clexes rest ts ->
    clexes ((ds ++ fs ++ es) ++ rest) (CtNum (Flt (VFloat (strtold ((ds ++ fs ++ es) ++ [0])).1)) :: ts).
  Proof.
    intros P Hf He Ne Hs R. pose proof P as (N & Fd & _).
    refine (lexes_tok cinit_rules (ds ++ fs ++ es) rest (fun txt => Some (Some (CtNum (Flt (VFloat (strtold (txt ++ [0])).1))))) (Some (CtNum _)) ts _ _ eq_refl R).
    - rewrite <- !app_assoc. destruct (m_cfloat_ok ds fs es rest N Fd Hf He Hs) as [Ef Ei].
      assert (m_number (ds ++ fs ++ es ++ rest) = Some (length ds)) as En.
      { apply m_number_ok; [done|]. destruct Hf as [-> | (l & -> & _)]; [|cbn; unfold dig; lia].
        destruct He as [-> | (s & l & -> & _)]; [|cbn; unfold dig; lia]. cbn [app]. by apply cstop_head. }
      assert (length ds < length ds + length fs + length es)%nat as Lt by (destruct Ne as [Ne|Ne]; [destruct fs|destruct es]; cbn; try done; lia).
      replace (length (ds ++ fs ++ es)) with (length ds + length fs + length es)%nat by (rewrite !app_length; lia).
      destruct ds as [|d ds]; [done|]. apply Forall_cons in Fd as [Hd Fd]. cbn [app] in *.
      change cinit_rules with ((take 7 (cinit_rules (F := F)) ++ [(m_number, cinit_int)]) ++ (m_cfloat, fun txt => Some (Some (CtNum (Flt (VFloat (strtold (txt ++ [0])).1))))) :: drop 9 cinit_rules).
      apply select_best; [done|apply Forall_app; split; [by apply digit_pre|]|].
      + constructor; [|constructor]. cbn [fst]. by rewrite En.
      + change (drop 9 (cinit_rules (F := F))) with ([nth 9 (cinit_rules (F := F)) (m_any, cinit_int)] ++ drop 10 (cinit_rules (F := F))).
        apply Forall_app. split; [|apply digit_post; [done|cbn; lia]].
        constructor; [|constructor]. cbn [nth cinit_rules fst]. by rewrite Ei.
    - destruct ds; done.
  Qed.

  Lemma clexes_special neg w rest ts : w = [110; 97; 110] \/ w = [105; 110; 102] -> cstop rest -> clexes rest ts ->
    clexes ((sgn neg ++ w) ++ rest) (CtNum (Flt (VFloat (strtold ((sgn neg ++ w) ++ [0])).1)) :: ts).
  Proof.
    intros Hw (c & r & Er & Hc) R.
    refine (lexes_tok cinit_rules _ rest (fun txt => Some (Some (CtNum (Flt (VFloat (strtold (txt ++ [0])).1))))) (Some (CtNum _)) ts _ _ eq_refl R).
    - clear R. subst rest. destruct Hw as [-> | ->], neg; destruct Hc as [-> | [-> | ->]]; reflexivity.
    - destruct neg, Hw as [-> | ->]; done.
  Qed.

  Lemma clexes_minus c rest ts : dig c -> clexes (c :: rest) ts -> clexes (45 :: c :: rest) (CtOp OpMinus :: ts).
  Proof.
    intros H R. change (45 :: c :: rest) with ([45] ++ c :: rest). change (CtOp OpMinus :: ts) with (put (Some (CtOp (F := F) OpMinus)) ts).
    refine (lexes_tok cinit_rules [45] (c :: rest) (fun _ => Some (Some (CtOp OpMinus))) (Some (CtOp OpMinus)) ts _ _ eq_refl R); [|done].
    clear R. cbn [app length].
    assert (m_cfloat (45 :: c :: rest) = None) as Ef.
    { unfold m_cfloat. pose proof (fun w => m_word_num true c rest w H) as W. cbn [sgn app] in W. rewrite !W by auto.
      unfold m_udecimal. by rewrite m_uint_head. }
    change cinit_rules with (take 17 (cinit_rules (F := F)) ++ (m_lit [45], fun _ => Some (Some (CtOp OpMinus))) :: drop 18 cinit_rules).
    apply select_best; [done| |].
    - unfold cinit_rules. cbn [take]. do 8 (constructor; [exact I|]). constructor; [cbn [fst]; by rewrite Ef|].
      do 8 (constructor; [exact I|]). constructor.
    - unfold cinit_rules. cbn [drop]. do 13 (constructor; [exact I|]). constructor; [|constructor]. cbn. lia.
  Qed.

  (** Identifiers. *)
  Lemma ident_char_is c : ident_char c <-> isident c = true.
  Proof. unfold ident_char, ident_start, isident, isalpha, isupper, islower, isdigit. lia. Qed.
  Lemma ident_start_is c : ident_start c <-> isid c = true.
  Proof. unfold ident_start, isid, isalpha, isupper, islower. lia. Qed.

  Definition iend (rest : list Z) : Prop := match rest with c :: _ => isident c = false | [] => True end.

  Lemma m_id_ok s rest : identifier s -> iend rest -> m_id (s ++ rest) = Some (length s).
  Proof.
    intros (c & t & -> & Hc & Ht) He. cbn [app m_id length]. apply ident_start_is in Hc. rewrite Hc. do 2 f_equal.
    apply run_app; [|exact He]. eapply Forall_impl; [exact Ht|]. intros x Hx. by apply ident_char_is.
  Qed.

  Lemma m_lit_take w text n : m_lit w text = Some n -> take n text = w /\ n = length w.
  Proof.
    revert text n. induction w as [|x w IH]; intros text n; cbn [m_lit]; [intros [= <-]; done|].
    destruct text as [|c t]; [done|]. destruct (Z.eqb_spec x c) as [->|]; [|done].
    destruct (m_lit w t) as [k|] eqn:E; [|done]. intros [= <-]. destruct (IH _ _ E) as [E1 ->]. cbn [take length]. by rewrite E1.
  Qed.
  Lemma m_nocase_take w text n : Forall (fun c => 97 <= c <= 122) w -> m_nocase w text = Some n -> map lower (take n text) = w /\ n = length w.
  Proof.
    intros Fw. revert text n. induction Fw as [|x w Hx _ IH]; intros text n; cbn [m_nocase]; [intros [= <-]; done|].
    destruct text as [|c t]; [done|]. destruct ((x =? c) || (x - 32 =? c)) eqn:Ex; [|done].
    destruct (m_nocase w t) as [k|] eqn:E; [|done]. intros [= <-]. destruct (IH _ _ E) as [E1 ->]. cbn [take map length]. rewrite E1. split; [|done]. f_equal.
    unfold lower. case_decide; lia.
  Qed.

  (** A match inside an identifier that is not all of it is shorter. *)
  Lemma inside s rest n : Forall ident_char s -> iend rest -> Forall ident_char (take n (s ++ rest)) -> take n (s ++ rest) <> s -> (n <= length (s ++ rest))%nat -> (n < length s)%nat.
  Proof.
    intros Fs He Fn N L. destruct (decide (n < length s)%nat) as [|G]; [done|]. exfalso.
    rewrite take_app_ge in Fn by lia. destruct (n - length s)%nat as [|k] eqn:Ek.
    - apply N. rewrite take_app_ge by lia. rewrite Ek. cbn. by rewrite app_nil_r.
    - rewrite app_length in L. destruct rest as [|c r]; [cbn in L; lia|]. cbn [take] in Fn. apply Forall_app in Fn as [_ Fn]. apply Forall_cons in Fn as [Fn _].
      apply ident_char_is in Fn. cbn in He. congruence.
  Qed.

  Lemma identifier_chars s : identifier s -> Forall ident_char s.
  Proof. intros (c & t & -> & Hc & Ht). constructor; [by left|done]. Qed.

  Lemma m_lit_len w text n : m_lit w text = Some n -> (n <= length text)%nat.
  Proof.
    revert text n. induction w as [|x w IH]; intros text n; cbn [m_lit]; [intros [= <-]; lia|].
    destruct text as [|c t]; [done|]. destruct (Z.eqb_spec x c) as [->|]; [|done].
    destruct (m_lit w t) as [k|] eqn:E; [|done]. intros [= <-]. apply IH in E. cbn. lia.
  Qed.
  Lemma m_nocase_len w text n : m_nocase w text = Some n -> (n <= length text)%nat.
  Proof.
    revert text n. induction w as [|x w IH]; intros text n; cbn [m_nocase]; [intros [= <-]; lia|].
    destruct text as [|c t]; [done|]. destruct ((x =? c) || (x - 32 =? c)); [|done].
    destruct (m_nocase w t) as [k|] eqn:E; [|done]. intros [= <-]. apply IH in E. cbn. lia.
  Qed.

  Lemma word_shorter w s rest : Forall ident_char w -> identifier s -> iend rest -> s <> w ->
    match m_lit w (s ++ rest) with None => True | Some k => (k < length s)%nat end.
  Proof.
    intros Fw Hs He N. destruct (m_lit w (s ++ rest)) as [k|] eqn:E; [|done]. pose proof (m_lit_len _ _ _ E). apply m_lit_take in E as [E _].
    apply (inside s rest k); [by apply identifier_chars|done|by rewrite E|by rewrite E|done].
  Qed.
  Lemma lower_ident c : 97 <= lower c <= 122 -> ident_char c.
  Proof. unfold lower, ident_char, ident_start. case_decide; lia. Qed.
  Lemma nocase_shorter w s rest : Forall (fun c => 97 <= c <= 122) w -> identifier s -> iend rest -> map lower s <> w ->
    match m_nocase w (s ++ rest) with None => True | Some k => (k < length s)%nat end.
  Proof.
    intros Fw Hs He N. destruct (m_nocase w (s ++ rest)) as [k|] eqn:E; [|done]. pose proof (m_nocase_len _ _ _ E). apply m_nocase_take in E as [E _]; [|done].
    apply (inside s rest k); [by apply identifier_chars|done| | |done].
    - rewrite <- E in Fw. apply Forall_fmap in Fw. eapply Forall_impl; [exact Fw|]. intros c Hc. by apply lower_ident.
    - intros Et. apply N. by rewrite <- E, Et.
  Qed.

  Lemma clexes_id s rest ts : usable s -> iend rest -> clexes rest ts -> clexes (s ++ rest) (CtId s :: ts).
  Proof.
    intros [Hs Nr] He R.
    refine (lexes_tok cinit_rules s rest (fun txt => Some (Some (CtId txt))) (Some (CtId s)) ts _ _ eq_refl R).
    2:{ destruct Hs as (c & t & -> & _). done. }
    clear R. pose proof (m_id_ok s rest Hs He) as Ei.
    assert (forall w, w ∈ [[105]; [110; 97; 110]; [105; 110; 102]] -> match m_nocase w (s ++ rest) with None => True | Some k => (k < length s)%nat end) as Wn.
    { intros w Hw. apply nocase_shorter; [|done..|].
      - rewrite !elem_of_cons, elem_of_nil in Hw. destruct Hw as [-> | [-> | [-> | []]]]; repeat constructor; lia.
      - intros E. apply Nr. right. by rewrite E. }
    assert (forall w, w ∈ [[78; 85; 76; 76]; [102; 97; 108; 115; 101]; [70; 65; 76; 83; 69]; [116; 114; 117; 101]; [84; 82; 85; 69]] -> match m_lit w (s ++ rest) with None => True | Some k => (k < length s)%nat end) as Wl.
    { intros w Hw. apply word_shorter; [|done..|].
      - rewrite !elem_of_cons, elem_of_nil in Hw. destruct Hw as [-> | [-> | [-> | [-> | [-> | []]]]]]; repeat (constructor; [unfold ident_char, ident_start; lia|]); constructor.
      - intros ->. apply Nr. by left. }
    destruct Hs as (c & t & -> & Hc & Ht). cbn [app] in *.
    assert (isdigit c = false /\ isspace c = false /\ c <> 43 /\ c <> 45) as (Hd & Hsp & Hp & Hm).
    { unfold isdigit, isspace. unfold ident_start in Hc. lia. }
    assert (match m_cfloat (c :: t ++ rest) with None => True | Some k => (k < length (c :: t))%nat end) as Wf.
    { unfold m_cfloat, m_word. cbn [m_sign]. rewrite (proj2 (Z.eqb_neq c 43)), (proj2 (Z.eqb_neq c 45)) by done. cbn [orb drop].
      unfold m_udecimal. rewrite m_uint_head by done. cbn [mbind option_bind].
      pose proof (Wn [110; 97; 110] ltac:(right; left)) as W1. pose proof (Wn [105; 110; 102] ltac:(right; right; left)) as W2.
      destruct (m_nocase [110; 97; 110] (c :: t ++ rest)), (m_nocase [105; 110; 102] (c :: t ++ rest)); cbn [mbind option_bind longest Nat.add]; try done; lia. }
    change cinit_rules with (take 10 (cinit_rules (F := F)) ++ (m_id, fun txt => Some (Some (CtId txt))) :: drop 11 cinit_rules).
    apply select_best; [done| |].
    - unfold cinit_rules. cbn [take]. constructor; [cbn [fst]; by rewrite m_space_head|].
      do 5 (constructor; [cbn [fst]; apply Wl; repeat (first [apply elem_of_list_here | apply elem_of_list_further])|]).
      constructor; [cbn [fst]; apply Wn; left|]. constructor; [cbn [fst]; by rewrite m_number_head|]. constructor; [exact Wf|].
      constructor; [|constructor]. cbn [fst]. by rewrite m_imag_head.
    - unfold cinit_rules. cbn [drop]. unfold ident_start in Hc.
      do 2 (constructor; [cbn [fst]; rewrite m_quoted_head; [done|lia]|]).
      constructor; [cbn [fst]; rewrite m_cast_head; [done|lia]|].
      constructor; [cbn [fst]; rewrite m_attr_head; [done|lia]|].
      constructor; [cbn [fst]; rewrite m_comment_head; [done|lia]|].
      do 15 (constructor; [cbn [fst]; rewrite m_lit_head; [done|lia]|]).
      constructor; [|constructor]. cbn [fst]. pose proof (m_any_head c (t ++ rest)). cbn [length]. destruct (m_any (c :: t ++ rest)); [lia|done].
  Qed.

  (** Literals between quotes. *)
  Lemma unquoted_ok q content : unquoted (q :: content ++ [q]) = content.
  Proof.
    unfold unquoted. cbn [length drop]. rewrite app_length. cbn [length]. replace (S (length content + 1) - 2)%nat with (length content) by lia. by rewrite drop_0, take_app.
  Qed.
  Lemma clexes_quoted q (mk : list Z -> @ctok F) content rest ts : (q, mk) = (34, CtStr) \/ (q, mk) = (39, CtChar) ->
    lex_literal q (content ++ q :: rest) = Some (content, rest) ->
    clexes rest ts -> clexes (q :: content ++ q :: rest) (mk content :: ts).
  Proof.
    intros Hq E R. replace (q :: content ++ q :: rest) with ((q :: content ++ [q]) ++ rest) by (cbn; by rewrite <- app_assoc).
    refine (lexes_tok cinit_rules (q :: content ++ [q]) rest (fun txt => Some (Some (mk (unquoted txt)))) (Some (mk content)) ts _ _ _ R).
    - clear R. cbn [app]. rewrite <- app_assoc. cbn [app].
      assert (m_quoted q (q :: content ++ q :: rest) = Some (length (q :: content ++ [q]))) as Em.
      { cbn [m_quoted]. rewrite Z.eqb_refl, E. cbn [mbind option_bind fst length]. rewrite app_length. cbn. f_equal. lia. }
      destruct Hq as [[= -> ->]|[= -> ->]].
      + change cinit_rules with (take 11 (cinit_rules (F := F)) ++ (m_quoted 34, fun txt => Some (Some (CtStr (unquoted txt)))) :: drop 12 cinit_rules).
        apply select_best; [exact Em| |].
        * unfold cinit_rules. cbn [take]. do 11 (constructor; [exact I|]). constructor.
        * unfold cinit_rules. cbn [drop]. do 19 (constructor; [exact I|]). constructor; [|constructor]. cbn. lia.
      + change cinit_rules with (take 12 (cinit_rules (F := F)) ++ (m_quoted 39, fun txt => Some (Some (CtChar (unquoted txt)))) :: drop 13 cinit_rules).
        apply select_best; [exact Em| |].
        * unfold cinit_rules. cbn [take]. do 12 (constructor; [exact I|]). constructor.
        * unfold cinit_rules. cbn [drop]. do 18 (constructor; [exact I|]). constructor; [|constructor]. cbn. lia.
    - discriminate.
    - by rewrite unquoted_ok.
  Qed.

  (** Casts. *)
  Lemma words_cons w ws : ws <> [] -> words (w :: ws) = w ++ 32 :: words ws.
  Proof. by destruct ws. Qed.
  Lemma words_head ws : ws <> [] -> Forall identifier ws -> exists c t, words ws = c :: t /\ ident_start c.
  Proof.
    intros N Fi. destruct ws as [|w ws]; [done|]. apply Forall_cons in Fi as [(c & t & -> & Hc & _) _].
    destruct ws; [exists c, t|exists c, (t ++ 32 :: words (l :: ws))]; done.
  Qed.
  Lemma m_words_ok ws : forall fuel c rest, ws <> [] -> Forall identifier ws -> c = 42 \/ c = 91 -> (length ws <= fuel)%nat ->
    m_words fuel (words ws ++ c :: rest) = Some (length (words ws)).
  Proof.
    induction ws as [|w ws IH]; intros fuel c rest N Fi Hc L; [done|]. apply Forall_cons in Fi as [Hw Fi].
    destruct fuel as [|fuel]; [cbn in L; lia|]. cbn [m_words].
    destruct ws as [|w' ws].
    - cbn [words]. rewrite m_id_ok; [|done|destruct Hc as [-> | ->]; done]. cbn [mbind option_bind]. rewrite drop_app.
      assert (run isspace (c :: rest) = 0%nat) as -> by (destruct Hc as [-> | ->]; done). cbn [drop].
      assert (m_id (c :: rest) = None) as -> by (destruct Hc as [-> | ->]; done). f_equal. lia.
    - rewrite words_cons by done. rewrite <- app_assoc. cbn [app]. rewrite m_id_ok; [|done|done]. cbn [mbind option_bind]. rewrite drop_app.
      destruct (words_head (w' :: ws)) as (d & t & Ed & Hd); [done|done|].
      assert (run isspace (32 :: words (w' :: ws) ++ c :: rest) = 1%nat) as ->.
      { rewrite Ed. cbn [run app]. change (isspace 32) with true. cbv iota. assert (isspace d = false) as -> by (unfold isspace; unfold ident_start in Hd; lia). done. }
      cbn [drop]. rewrite drop_0.
      assert (exists k, m_id (words (w' :: ws) ++ c :: rest) = Some k) as [k ->].
      { rewrite Ed. cbn [app m_id]. apply ident_start_is in Hd. rewrite Hd. eauto. }
      rewrite IH; [|done..|cbn in *; lia]. cbn [mbind option_bind]. f_equal. rewrite app_length. cbn [length]. lia.
  Qed.

  Lemma words_length ws : Forall identifier ws -> (length ws <= length (words ws))%nat.
  Proof.
    induction 1 as [|w ws (c & t & -> & _) _ IH]; [done|]. destruct ws as [|w' ws]; [cbn; lia|]. rewrite words_cons by done.
    rewrite app_length. cbn [length] in *. lia.
  Qed.

  Definition star (b : bool) : list Z := if b then [42] else [].

  Lemma m_seq_app m1 m2 (a t : list Z) k : m1 (a ++ t) = Some (length a) -> m2 t = Some k -> m_seq m1 m2 (a ++ t) = Some (length a + k)%nat.
  Proof. intros E1 E2. unfold m_seq. rewrite E1. cbn [mbind option_bind]. by rewrite drop_app, E2. Qed.
  Lemma m_ws_one m (c : Z) (t : list Z) n : isspace c = false -> m (c :: t) = Some n -> m_ws m (c :: t) = Some n.
  Proof. intros Hc E. unfold m_ws. cbn [run]. rewrite Hc. cbn [drop]. by rewrite E. Qed.
  Lemma m_ws_space m (c : Z) (t : list Z) n : isspace c = false -> m (c :: t) = Some n -> m_ws m (32 :: c :: t) = Some (S n).
  Proof. intros Hc E. unfold m_ws. cbn [run]. change (isspace 32) with true. cbv iota. rewrite Hc. cbn [drop]. by rewrite E. Qed.

  Lemma m_cast_ok ws b rest : ws <> [] -> Forall identifier ws ->
    m_cast (40 :: words ws ++ star b ++ [91; 93; 41] ++ rest) = Some (length (40 :: words ws ++ star b ++ [91; 93; 41])).
  Proof.
    intros N Fi. unfold m_cast. set (fuel := length _).
    assert (length ws <= fuel)%nat as Lf.
    { unfold fuel. cbn [length]. rewrite app_length. pose proof (words_length ws Fi). lia. }
    destruct (words_head ws N Fi) as (d & t & Ed & Hd).
    assert (m_words fuel (words ws ++ star b ++ [91; 93; 41] ++ rest) = Some (length (words ws))) as Ew.
    { destruct b; cbn [star app]; apply m_words_ok; auto. }
    assert (m_ws (m_words fuel) (words ws ++ star b ++ [91; 93; 41] ++ rest) = Some (length (words ws))) as Ew'.
    { rewrite Ed in *. cbn [app] in *. apply m_ws_one; [unfold isspace; unfold ident_start in Hd; lia|done]. }
    clearbody fuel.
    change (40 :: words ws ++ star b ++ [91; 93; 41] ++ rest) with ([40] ++ words ws ++ star b ++ [91; 93; 41] ++ rest).
    erewrite m_seq_app; [|done|]; cycle 1.
    { apply m_seq_app; [exact Ew'|]. apply m_seq_app; [by destruct b|]. cbn. reflexivity. }
    f_equal. cbn [length]. rewrite !app_length. cbn. lia.
  Qed.

  Lemma before_paren_ok l rest : Forall (fun c => c <> 41) l -> before_paren (l ++ 41 :: rest) = l.
  Proof. induction 1 as [|c l Hc _ IH]; [done|]. cbn [app before_paren]. rewrite (proj2 (Z.eqb_neq c 41)) by done. by rewrite IH. Qed.

  Lemma words_chars ws : Forall identifier ws -> Forall (fun c => ident_char c \/ c = 32) (words ws).
  Proof.
    induction 1 as [|w ws Hw _ IH]; [constructor|]. apply identifier_chars in Hw.
    assert (Forall (fun c => ident_char c \/ c = 32) w) as Hw' by (eapply Forall_impl; [exact Hw|]; cbn; auto).
    destruct ws; [done|]. rewrite words_cons by done. apply Forall_app. split; [done|]. constructor; [by right|done].
  Qed.
  Lemma words_last ws : ws <> [] -> Forall identifier ws -> exists l c, words ws = l ++ [c] /\ ident_char c.
  Proof.
    intros N. induction ws as [|w ws IH]; [done|]. intros Fi. apply Forall_cons in Fi as [Hw Fi]. destruct ws as [|w' ws].
    - apply identifier_chars in Hw as Hc. destruct Hw as (c & t & -> & _). destruct (exists_last (l := c :: t) ltac:(done)) as (l & x & E).
      exists l, x. cbn [words]. split; [done|]. rewrite E in Hc. apply Forall_app in Hc as [_ Hc]. by apply Forall_cons in Hc as [? _].
    - destruct IH as (l & x & E & Hx); [done|done|]. exists (w ++ 32 :: l), x. rewrite words_cons, E by done. split; [by rewrite <- app_assoc|done].
  Qed.

  Lemma trim_drop l r : Forall (fun c => trimmed c = true) l -> r <> [] -> trim_rev (l ++ r) = trim_rev r.
  Proof.
    induction 1 as [|c l Hc _ IH]; intros N; [done|]. specialize (IH N). cbn [app trim_rev]. rewrite Hc, IH.
    destruct (l ++ r) eqn:E; [|done]. apply app_eq_nil in E as [_ ->]. done.
  Qed.

  Lemma get_type_ok ws b : ws <> [] -> Forall identifier ws -> get_type (words ws ++ star b ++ [91; 93; 41]) = words ws.
  Proof.
    intros N Fi. unfold get_type. destruct (words_head ws N Fi) as (d & t & Ed & Hd).
    assert (run isspace (words ws ++ star b ++ [91; 93; 41]) = 0%nat) as ->.
    { rewrite Ed. cbn [run app]. assert (isspace d = false) as -> by (unfold isspace; unfold ident_start in Hd; lia). done. }
    rewrite drop_0. replace (words ws ++ star b ++ [91; 93; 41]) with ((words ws ++ star b ++ [91; 93]) ++ 41 :: []) by (rewrite <- !app_assoc; done).
    rewrite before_paren_ok.
    2:{ apply Forall_app. split; [eapply Forall_impl; [exact (words_chars ws Fi)|]; cbn; unfold ident_char, ident_start; intros; lia|]. destruct b; repeat constructor; discriminate. }
    rewrite rev_app_distr. rewrite trim_drop.
    - destruct (words_last ws N Fi) as (l & c & E & Hc). rewrite E, rev_app_distr. cbn [rev app].
      assert (trimmed c = false) as Ht by (unfold trimmed, isspace; unfold ident_char, ident_start in Hc; lia).
      cbn [trim_rev]. rewrite Ht. replace (match rev l with [] => c :: rev l | _ :: _ => c :: rev l end) with (c :: rev l) by (by destruct (rev l)).
      cbn [rev]. by rewrite rev_involutive.
    - destruct b; repeat constructor.
    - destruct (words_last ws N Fi) as (l & c & E & Hc). rewrite E, rev_app_distr. done.
  Qed.

  Lemma clexes_cast ws b rest ts : ws <> [] -> Forall identifier ws -> clexes rest ts ->
    clexes ((40 :: words ws ++ star b ++ [91; 93; 41]) ++ rest) (CtCast (words ws) :: ts).
  Proof.
    intros N Fi R.
    refine (lexes_tok cinit_rules (40 :: words ws ++ star b ++ [91; 93; 41]) rest (fun txt => Some (Some (CtCast (get_type (drop 1 txt))))) (Some (CtCast (words ws))) ts _ _ _ R).
    - clear R. pose proof (m_cast_ok ws b rest N Fi) as E. cbn [app] in *. rewrite <- !app_assoc. cbn [app] in *.
      change cinit_rules with (take 13 (cinit_rules (F := F)) ++ (m_cast, fun txt => Some (Some (CtCast (get_type (drop 1 txt))))) :: drop 14 cinit_rules).
      apply select_best; [exact E| |].
      + unfold cinit_rules. cbn [take]. do 13 (constructor; [exact I|]). constructor.
      + unfold cinit_rules. cbn [drop]. do 12 (constructor; [exact I|]). constructor; [cbn; lia|]. do 4 (constructor; [exact I|]). constructor; [|constructor]. cbn; lia.
    - discriminate.
    - cbn [drop]. rewrite drop_0. by rewrite get_type_ok.
  Qed.

  (** Attributes. *)
  Definition attr_txt (nm ds : list Z) : list Z := [47; 42; 32] ++ nm ++ [32; 61; 32] ++ ds ++ [32; 42; 47].

  Lemma m_attr_ok nm ds rest : identifier nm -> plain ds -> m_attr (attr_txt nm ds ++ rest) = Some (length (attr_txt nm ds)).
  Proof.
    intros Hn (N & Fd & _). unfold attr_txt. rewrite <- !app_assoc. cbn [app].
    pose proof (m_id_ok nm (32 :: 61 :: 32 :: ds ++ 32 :: 42 :: 47 :: rest) Hn ltac:(done)) as Ei.
    pose proof (m_uint_ok ds (32 :: 42 :: 47 :: rest) N Fd ltac:(unfold dig; lia)) as Eu.
    assert (m_ws m_id (32 :: nm ++ 32 :: 61 :: 32 :: ds ++ 32 :: 42 :: 47 :: rest) = Some (S (length nm))) as E1.
    { destruct Hn as (c & t & -> & Hc & _). cbn [app] in *. apply m_ws_space; [unfold isspace; unfold ident_start in Hc; lia|done]. }
    assert (m_ws m_uint (32 :: ds ++ 32 :: 42 :: 47 :: rest) = Some (S (length ds))) as E2.
    { destruct ds as [|d ds]; [done|]. apply Forall_cons in Fd as [Hd Fd]. cbn [app] in *. apply m_ws_space; [unfold isspace; unfold dig in Hd; lia|done]. }
    change (47 :: 42 :: 32 :: nm ++ 32 :: 61 :: 32 :: ds ++ 32 :: 42 :: 47 :: rest) with ([47; 42] ++ (32 :: nm) ++ [32; 61] ++ (32 :: ds) ++ 32 :: 42 :: 47 :: rest).
    unfold m_attr. erewrite m_seq_app; [|done|]; cycle 1.
    { apply m_seq_app; [exact E1|]. apply m_seq_app; [by apply m_ws_space|]. apply m_seq_app; [exact E2|]. by apply m_ws_space. }
    f_equal. cbn [length]. rewrite !app_length. cbn [length]. rewrite app_length. cbn. lia.
  Qed.

  Lemma comment_end_le (l rest : list Z) : (comment_end (l ++ 42%Z :: 47%Z :: rest) <= length l + 2)%nat.
  Proof.
    induction l as [|c l IH]; [cbn; lia|]. cbn [app comment_end length].
    destruct (l ++ 42 :: 47 :: rest) as [|d t] eqn:E; [lia|]. destruct ((c =? 42) && (d =? 47)); lia.
  Qed.

  Lemma after_assign_ok l rest : Forall (fun c => c <> 61) l -> after_assign (l ++ 61 :: rest) = rest.
  Proof. induction 1 as [|c l Hc _ IH]; [done|]. cbn [app after_assign]. by rewrite (proj2 (Z.eqb_neq c 61)) by done. Qed.

  Lemma digits_value_ok ds : Forall dig ds -> digits_value 10 ds = numeral_value 10 ds.
  Proof.
    intros H. unfold digits_value, numeral_value.
    assert (forall v, foldl (fun v c => v * 10 + (c - 48)) v ds = foldl (fun a c => a * 10 + default 0 (digit_of c)) v ds) as G; [|done].
    induction H as [|c ds Hc _ IH]; intros v; [done|]. cbn [foldl]. rewrite <- IH. do 2 f_equal.
    unfold dig in Hc. unfold digit_of. by rewrite decide_True by lia.
  Qed.

  Lemma strtoull0_ok ds : plain ds -> numeral_value 10 ds < 2 ^ 32 -> strtoull0 (32 :: ds ++ [32; 42; 47]) = numeral_value 10 ds.
  Proof.
    intros (N & Fd & Hz) L. destruct ds as [|d ds]; [done|]. apply Forall_cons in Fd as Fd'. destruct Fd' as [Hd _]. unfold strtoull0.
    assert (run isspace (32 :: (d :: ds) ++ [32; 42; 47]) = 1%nat) as ->.
    { cbn [run app]. change (isspace 32) with true. cbv iota. by replace (isspace d) with false by (unfold isspace; unfold dig in Hd; lia). }
    cbn [drop]. rewrite drop_0. cbn [app].
    assert (0 <= numeral_value 10 (d :: ds)) as G.
    { rewrite <- digits_value_ok by done. unfold digits_value.
      assert (forall v, 0 <= v -> 0 <= foldl (fun v c => v * 10 + (c - 48)) v (d :: ds)) as G; [|by apply G].
      clear -Fd. induction Fd as [|c l Hc _ IH]; intros v Hv; [done|]. cbn [foldl]. apply IH. unfold dig in Hc. lia. }
    assert (match d :: ds ++ [32; 42; 47] with
      | 48 :: u => digits_value 8 (take (run (fun c => (48 <=? c) && (c <=? 55)) u) u)
      | _ => digits_value 10 (take (run isdigit (d :: ds ++ [32; 42; 47])) (d :: ds ++ [32; 42; 47])) end = numeral_value 10 (d :: ds)) as ->.
    { destruct (decide (d = 48)) as [->|Nd].
      - injection (Hz eq_refl) as ->. reflexivity.
      - assert (digits_value 10 (take (run isdigit (d :: ds ++ [32; 42; 47])) (d :: ds ++ [32; 42; 47])) = numeral_value 10 (d :: ds)) as E.
        { change (d :: ds ++ [32; 42; 47]) with ((d :: ds) ++ [32; 42; 47]). rewrite run_digits; [|done|unfold dig; lia]. rewrite take_app. by apply digits_value_ok. }
        rewrite <- E. clear -Nd. destruct d as [|p|p]; [done| |done]. repeat (destruct p as [p|p|]; try reflexivity; try lia). }
    rewrite Z.min_l by lia. apply Z.mod_small. lia.
  Qed.

  Lemma clexes_attr nm ds rest ts : identifier nm -> plain ds -> numeral_value 10 ds < 2 ^ 32 -> clexes rest ts ->
    clexes (attr_txt nm ds ++ 32 :: rest) (CtAttr nm (numeral_value 10 ds) :: ts).
  Proof.
    intros Hn P L R.
    refine (lexes_tok cinit_rules (attr_txt nm ds) (32 :: rest) (fun txt => Some (Some (CtAttr (get_id (drop 2 txt)) (strtoull0 (after_assign txt))))) (Some (CtAttr nm (numeral_value 10 ds))) ts _ _ _ (clexes_space 32 _ _ eq_refl R)).
    - clear R. pose proof (m_attr_ok nm ds (32 :: rest) Hn P) as E.
      change cinit_rules with (take 14 (cinit_rules (F := F)) ++ (m_attr, fun txt => Some (Some (CtAttr (get_id (drop 2 txt)) (strtoull0 (after_assign txt))))) :: drop 15 cinit_rules).
      apply select_best; [exact E| |].
      + unfold cinit_rules. cbn [take]. do 14 (constructor; [exact I|]). constructor.
      + unfold cinit_rules. cbn [drop]. constructor.
        * cbn [fst]. unfold attr_txt. rewrite <- !app_assoc. cbn [app m_comment].
          pose proof (comment_end_le ([32] ++ nm ++ [32; 61; 32] ++ ds ++ [32]) (32 :: rest)) as C. rewrite <- !app_assoc in C. cbn [app] in C.
          set (ce := comment_end _) in *. clearbody ce.
          repeat (cbn [length] in C |- *; rewrite app_length in C || rewrite app_length). cbn [length] in C |- *. lia.
        * do 3 (constructor; [exact I|]). constructor; [cbn; lia|]. do 11 (constructor; [exact I|]). constructor; [|constructor]. cbn. lia.
    - discriminate.
    - do 2 f_equal. apply f_equal2.
      + unfold get_id, attr_txt. cbn [app drop]. destruct Hn as (c & t & -> & Hc & Ht).
        assert (run isspace (32 :: (c :: t) ++ 32 :: 61 :: 32 :: ds ++ [32; 42; 47]) = 1%nat) as ->.
        { cbn [run app]. change (isspace 32) with true. cbv iota. by replace (isspace c) with false by (unfold isspace; unfold ident_start in Hc; lia). }
        cbn [drop]. rewrite drop_0. rewrite run_app; [by rewrite take_app| |done].
        constructor; [apply ident_char_is; by left|]. eapply Forall_impl; [exact Ht|]. intros x Hx. by apply ident_char_is.
      + unfold attr_txt. replace ([47; 42; 32] ++ nm ++ [32; 61; 32] ++ ds ++ [32; 42; 47]) with (([47; 42; 32] ++ nm ++ [32]) ++ 61 :: 32 :: ds ++ [32; 42; 47]) by (rewrite <- !app_assoc; done).
        rewrite after_assign_ok; [by apply strtoull0_ok|]. apply Forall_app. split; [repeat constructor; discriminate|]. apply Forall_app. split; [|repeat constructor; discriminate].
        apply identifier_chars in Hn. eapply Forall_impl; [exact Hn|]. unfold ident_char, ident_start. cbn. intros; lia.
  Qed.
End Lex.
