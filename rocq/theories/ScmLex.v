(** The lexer on the lexemes mr_scm_save prints. *)
From Verif Require Import Base NumStr NumStrProof Enum Quote QuoteProof Value ValueProof Json Cinit LexProof JsonLex JsonSpec CinitSpec CinitLex Scm ScmSpec.
Local Open Scope Z_scope.

(** What follows a lexeme. *)
Definition sstop (rest : list Z) : Prop := match rest with [] => True | c :: _ => c = 32 \/ c = 10 \/ c = 41 end.
(** A character that begins no white space, closing parenthesis or dot. *)
Definition begins (rest : list Z) : Prop := match rest with [] => True | c :: _ => isspace c = false /\ c <> 41 /\ c <> 46 end.
Definition nospace (rest : list Z) : Prop := match rest with [] => True | c :: _ => isspace c = false end.
Definition blanks (w : list Z) : Prop := Forall (fun c => c = 32 \/ c = 10) w.

Lemma blanks_run w rest : blanks w -> nospace rest -> run isspace (w ++ rest) = length w.
Proof. intros B N. apply run_app; [|exact N]. eapply Forall_impl; [exact B|]. cbn. intros c [-> | ->]; done. Qed.
Lemma begins_nospace rest : begins rest -> nospace rest.
Proof. destruct rest; [done|]. by intros [? _]. Qed.
Lemma blanks_spaces n : blanks (spaces n).
Proof. apply Forall_replicate. by left. Qed.

(** Numbers in base 16. *)
Lemma hex_digit_in c : 0 <= c < 16 -> digit_in 16 (hex_char c) /\ digit_of (hex_char c) = Some c /\ isxdigit (hex_char c) = true.
Proof.
  intros H. unfold hex_char, digit_in, digit_of, isxdigit, isdigit. destruct (Z.ltb_spec c 10).
  - rewrite decide_True by lia. split; [exists c; split; [f_equal; lia|lia]|]. split; [f_equal; lia|lia].
  - rewrite decide_False by lia. rewrite decide_False by lia. rewrite decide_True by lia. split; [exists c; split; [f_equal; lia|lia]|]. split; [f_equal; lia|lia].
Qed.
Lemma numeral_snoc b ds d : numeral_value b (ds ++ [d]) = numeral_value b ds * b + default 0 (digit_of d).
Proof. unfold numeral_value. by rewrite foldl_app. Qed.
Lemma hex_digits_ok fuel v : (0 < fuel)%nat -> 0 <= v < 16 ^ Z.of_nat fuel ->
  hex_digits fuel v <> [] /\ Forall (digit_in 16) (hex_digits fuel v) /\ Forall (fun c => isxdigit c = true) (hex_digits fuel v) /\
  numeral_value 16 (hex_digits fuel v) = v.
Proof.
  revert v. induction fuel as [|fuel IH]; intros v L V; [lia|]. cbn [hex_digits].
  pose proof (Z.mod_pos_bound v 16 ltac:(lia)) as M. destruct (hex_digit_in (v mod 16) M) as (D1 & D2 & D3).
  pose proof (Z.div_mod v 16 ltac:(lia)) as Dm. destruct (Z.ltb_spec v 16) as [Hv|Hv].
  - cbn [app]. split; [done|]. split; [by constructor|]. split; [by constructor|]. unfold numeral_value. cbn [foldl]. rewrite D2. unfold default, id.
    rewrite Z.mod_small by lia. lia.
  - assert (0 < fuel)%nat as L' by (destruct fuel; [cbn in V; lia|lia]).
    assert (0 <= v / 16 < 16 ^ Z.of_nat fuel) as V'.
    { split; [apply Z.div_pos; lia|]. apply Z.div_lt_upper_bound; [lia|]. rewrite Nat2Z.inj_succ, Z.pow_succ_r in V by lia. lia. }
    destruct (IH _ L' V') as (N & A & B & C). split; [by destruct (hex_digits fuel (v / 16))|]. split; [apply Forall_app; split; [done|by constructor]|].
    split; [apply Forall_app; split; [done|by constructor]|]. rewrite numeral_snoc, C, D2. unfold default, id. lia.
Qed.

Lemma parse_hex ds : ds <> [] -> Forall (digit_in 16) ds ->
  strtouintmax ((48 :: 120 :: ds) ++ [0]) 16 = Some (numeral_value 16 ds mod 2 ^ 128, length (48 :: 120 :: ds)).
Proof.
  intros N Fd. destruct (strtouintmax_ok (48 :: 120 :: ds) [] 16) as (w & e & E & R). rewrite E. f_equal.
  destruct R as (bl & sg & text & Eb & Hbl & Hsg & R).
  assert (bl = [] /\ sg = [] /\ text = 48 :: 120 :: ds) as (-> & -> & ->).
  { destruct bl as [|x bl].
    - split; [done|]. cbn [app] in Eb. destruct Hsg as [-> |[-> | ->]]; cbn [app] in Eb; simplify_eq; done.
    - exfalso. apply Forall_cons in Hbl as [Hx _]. injection Eb as <- _. apply isspace_blank in Hx. done. }
  destruct R as [(p & d & t & b & E1 & _ & Hp & Hd & Ht & -> & ->)|(R1 & _)].
  - rewrite decide_True in Hp by (split; [by right|by left]). destruct Hp as [Lp ->].
    destruct p as [|p1 [|p2 [|? ?]]]; try done. injection E1 as <- <- E1.
    assert (t = []) as ->.
    { destruct t as [|y t]; [done|]. exfalso. rewrite E1 in Fd. apply Forall_app in Fd as [_ Fd]. apply Forall_cons in Fd as [Fd _]. by apply (Ht y). }
    rewrite app_nil_r in E1. subst d. done.
  - exfalso. apply (R1 48 eq_refl). exists 0. split; [done|lia].
Qed.

Section Lex.
  Context {F : Type} `{FL : Floats F}.
  Notation mlexes := (lexes (scm_rules (F := F))).

  (** White space. *)
  Lemma m_space_ok w rest : w <> [] -> blanks w -> nospace rest -> m_space (w ++ rest) = Some (length w).
  Proof. intros N B H. unfold m_space. rewrite blanks_run by done. by destruct w. Qed.
  Lemma m_ws_ok m w rest n : blanks w -> nospace rest -> m rest = Some n -> m_ws m (w ++ rest) = Some (length w + n)%nat.
  Proof. intros B H E. unfold m_ws. rewrite blanks_run by done. by rewrite drop_app, E. Qed.
  Lemma m_ws_none m w rest : blanks w -> nospace rest -> m rest = None -> m_ws m (w ++ rest) = None.
  Proof. intros B H E. unfold m_ws. rewrite blanks_run by done. by rewrite drop_app, E. Qed.
  Lemma m_dot_none w rest : w <> [] -> blanks w -> nospace rest -> head rest <> Some 46 -> m_dot (w ++ rest) = None.
  Proof.
    intros N B H Hd. unfold m_dot, m_seq at 1. rewrite m_space_ok by done. cbn [mbind option_bind]. rewrite drop_app. unfold m_seq.
    assert (m_lit [46] rest = None) as ->; [|done]. destruct rest as [|c r]; [done|]. apply m_lit_head. intros <-. done.
  Qed.

  Lemma mlexes_ws w rest ts : w <> [] -> blanks w -> begins rest -> mlexes rest ts -> mlexes (w ++ rest) (MtWs :: ts).
  Proof.
    intros N B H R. pose proof (begins_nospace _ H) as Hn.
    refine (lexes_tok scm_rules w rest (fun _ => Some (Some MtWs)) (Some MtWs) ts _ N eq_refl R). clear R.
    pose proof (m_space_ok w rest N B Hn) as E.
    assert (m_rp (w ++ rest) = None) as Er.
    { unfold m_rp. apply m_ws_none; [done|done|]. destruct rest as [|c r]; [done|]. apply m_lit_head. destruct H as (_ & H & _). congruence. }
    assert (m_dot (w ++ rest) = None) as Ed.
    { apply m_dot_none; [done..|]. destruct rest as [|c r]; [done|]. destruct H as (_ & _ & H). cbn. congruence. }
    change scm_rules with ([] ++ (m_space, fun _ => Some (Some MtWs)) :: drop 1 (scm_rules (F := F))).
    apply select_best; [exact E|constructor|]. unfold scm_rules. cbn [drop].
    destruct w as [|c w]; [by destruct N|]. apply Forall_cons in B as [Hc _]. cbn [app] in *.
    destruct Hc as [-> | ->]; (do 12 (constructor; [exact I|])); (constructor; [cbn [fst]; by rewrite Er|]);
      (constructor; [exact I|]); (constructor; [cbn [fst]; by rewrite Ed|]); (constructor; [cbn; try exact I; lia|constructor]).
  Qed.

  (** Parentheses and the dot. *)
  Lemma mlexes_lp w rest ts : blanks w -> nospace rest -> mlexes rest ts -> mlexes (40 :: w ++ rest) (MtLp :: ts).
  Proof.
    intros B H R. change (40 :: w ++ rest) with ((40 :: w) ++ rest).
    refine (lexes_tok scm_rules (40 :: w) rest (fun _ => Some (Some MtLp)) (Some MtLp) ts _ _ eq_refl R); [|done]. clear R.
    change scm_rules with (take 12 (scm_rules (F := F)) ++ (m_lp, fun _ => Some (Some MtLp)) :: drop 13 (scm_rules (F := F))).
    cbn [app]. apply select_best.
    - unfold m_lp, m_seq, m_spaces. cbn [m_lit Z.eqb Pos.eqb mbind option_bind drop]. rewrite drop_0, blanks_run by done. done.
    - unfold scm_rules. cbn [take]. do 12 (constructor; [exact I|]). constructor.
    - unfold scm_rules. cbn [drop]. do 3 (constructor; [exact I|]). constructor; [cbn; lia|constructor].
  Qed.

  Lemma mlexes_rp w rest ts : blanks w -> mlexes rest ts -> mlexes (w ++ 41 :: rest) (MtRp :: ts).
  Proof.
    intros B R. replace (w ++ 41 :: rest) with ((w ++ [41]) ++ rest) by (rewrite <- app_assoc; done).
    refine (lexes_tok scm_rules (w ++ [41]) rest (fun _ => Some (Some MtRp)) (Some MtRp) ts _ _ eq_refl R); [|by destruct w]. clear R.
    rewrite <- app_assoc. cbn [app]. rewrite app_length. cbn [length].
    assert (m_rp (w ++ 41 :: rest) = Some (length w + 1)%nat) as Er by (unfold m_rp; by apply m_ws_ok).
    change scm_rules with (take 13 (scm_rules (F := F)) ++ (m_rp, fun _ => Some (Some MtRp)) :: drop 14 (scm_rules (F := F))).
    apply select_best; [exact Er| |].
    - destruct w as [|c w].
      + unfold scm_rules. cbn [take app]. do 13 (constructor; [exact I|]). constructor.
      + pose proof (m_space_ok (c :: w) (41 :: rest) ltac:(done) B ltac:(done)) as E. apply Forall_cons in B as [Hc _]. cbn [app] in *.
        unfold scm_rules. cbn [take]. constructor; [cbn [fst]; rewrite E; lia|]. destruct Hc as [-> | ->]; (do 12 (constructor; [exact I|])); constructor.
    - assert (m_id (w ++ 41 :: rest) = None) as Ei.
      { destruct w as [|c w]; [done|]. apply Forall_cons in B as [Hc _]. destruct Hc as [-> | ->]; done. }
      assert (m_dot (w ++ 41 :: rest) = None) as Ed.
      { destruct w as [|c w]; [done|]. by apply m_dot_none. }
      unfold scm_rules. cbn [drop]. constructor; [cbn [fst]; by rewrite Ei|]. constructor; [cbn [fst]; by rewrite Ed|]. constructor; [|constructor].
      cbn [fst]. destruct w as [|c w]; [cbn; lia|]. cbn [app length]. pose proof (m_any_head c (w ++ 41 :: rest)). destruct (m_any (c :: w ++ 41 :: rest)); [lia|done].
  Qed.

  Lemma mlexes_dot rest ts : nospace rest -> mlexes rest ts -> mlexes ([32; 46; 32] ++ rest) (MtDot :: ts).
  Proof.
    intros H R. refine (lexes_tok scm_rules [32; 46; 32] rest (fun _ => Some (Some MtDot)) (Some MtDot) ts _ _ eq_refl R); [|done]. clear R.
    assert (m_dot ([32; 46; 32] ++ rest) = Some 3%nat) as E.
    { unfold m_dot. change ([32; 46; 32] ++ rest) with ([32] ++ [46] ++ [32] ++ rest). erewrite m_seq_app; [|done|]; cycle 1.
      { apply m_seq_app; [done|]. apply (m_space_ok [32]); [done|by repeat constructor|done]. }
      done. }
    change scm_rules with (take 15 (scm_rules (F := F)) ++ (m_dot, fun _ => Some (Some MtDot)) :: drop 16 (scm_rules (F := F))).
    apply select_best; [exact E| |].
    - unfold scm_rules. cbn [take app]. constructor; [cbn; lia|]. do 14 (constructor; [exact I|]). constructor.
    - unfold scm_rules. cbn [drop app]. constructor; [cbn; lia|constructor].
  Qed.

  (** Words. *)
  Lemma mlexes_word w t rest ts : (w, t) ∈ [(txt_nil, MtFalse); (txt_t, MtNum (VInt 1))] -> sstop rest ->
    mlexes rest ts -> mlexes (w ++ rest) (t :: ts).
  Proof.
    intros H Hs R. rewrite !elem_of_cons, elem_of_nil in H.
    refine (lexes_tok scm_rules w rest (fun _ => Some (Some t)) (Some t) ts _ _ eq_refl R).
    - clear R. destruct rest as [|c r]; [destruct H as [[= -> ->] | [[= -> ->] | []]]; reflexivity|].
      cbn in Hs. destruct H as [[= -> ->] | [[= -> ->] | []]]; destruct Hs as [-> | [-> | ->]]; reflexivity.
    - destruct H as [[= -> ->] | [[= -> ->] | []]]; discriminate.
  Qed.

  (** Rules that look at the first character. *)
  Lemma m_hash_head lo up p (c : Z) (t : list Z) : c <> 35 -> c <> 43 -> c <> 45 -> m_hash lo up p (c :: t) = None.
  Proof.
    intros N1 N2 N3. unfold m_hash. cbn [m_sign]. rewrite (proj2 (Z.eqb_neq c 43)), (proj2 (Z.eqb_neq c 45)) by done. cbn [orb drop].
    destruct c as [|q|q]; [done| |done]. repeat (destruct q as [q|q|]; try reflexivity; try lia).
  Qed.
  Lemma m_hash_num lo up p neg (c : Z) (t : list Z) : dig c -> m_hash lo up p (sgn neg ++ c :: t) = None.
  Proof.
    intros H. unfold m_hash. destruct (sign_len neg c t H) as [-> ->]. unfold dig in H.
    destruct c as [|q|q]; [done| |done]. repeat (destruct q as [q|q|]; try reflexivity; try lia).
  Qed.
  Lemma m_schar_head (c : Z) (t : list Z) : c <> 35 -> m_schar (c :: t) = None /\ m_sxchar (c :: t) = None.
  Proof. intros N. unfold m_schar, m_sxchar. destruct c as [|q|q]; [done| |done]. repeat (destruct q as [q|q|]; try (split; reflexivity); try lia). Qed.
  Lemma m_sattr_head (c : Z) (t : list Z) : c <> 59 -> m_sattr (c :: t) = None.
  Proof. intros N. unfold m_sattr, m_seq at 1, m_semis. cbn [run]. by rewrite (proj2 (Z.eqb_neq 59 c)). Qed.
  Lemma m_scomment_head (c : Z) (t : list Z) : c <> 59 -> m_scomment (c :: t) = None.
  Proof. intros N. unfold m_scomment, m_seq at 1. by rewrite m_lit_head. Qed.
  Lemma m_lp_head (c : Z) (t : list Z) : c <> 40 -> m_lp (c :: t) = None.
  Proof. intros N. unfold m_lp, m_seq at 1. by rewrite m_lit_head. Qed.
  Lemma m_rp_head (c : Z) (t : list Z) : isspace c = false -> c <> 41 -> m_rp (c :: t) = None.
  Proof. intros H N. apply (m_ws_none (m_lit [41]) []); [constructor|exact H|]. by apply m_lit_head. Qed.
  Lemma m_dot_head (c : Z) (t : list Z) : isspace c = false -> m_dot (c :: t) = None.
  Proof. intros H. unfold m_dot, m_seq at 1. by rewrite m_space_head. Qed.

  (** Identifiers. *)
  Lemma mlexes_id s rest ts : musable s -> iend rest -> mlexes rest ts -> mlexes (s ++ rest) (MtId s :: ts).
  Proof.
    intros [Hs Nr] He R.
    refine (lexes_tok scm_rules s rest (fun txt => Some (Some (MtId txt))) (Some (MtId s)) ts _ _ eq_refl R).
    2:{ destruct Hs as (c & t & -> & _). done. }
    clear R. pose proof (m_id_ok s rest Hs He) as Ei.
    assert (forall w, w ∈ [[110; 97; 110]; [105; 110; 102]] -> match m_nocase w (s ++ rest) with None => True | Some k => (k < length s)%nat end) as Wn.
    { intros w Hw. apply nocase_shorter; [|done..|].
      - rewrite !elem_of_cons, elem_of_nil in Hw. destruct Hw as [-> | [-> | []]]; repeat constructor; lia.
      - intros E. apply Nr. right. by rewrite E. }
    assert (forall w, w ∈ [txt_t; txt_nil] -> match m_lit w (s ++ rest) with None => True | Some k => (k < length s)%nat end) as Wl.
    { intros w Hw. apply word_shorter; [|done..|].
      - rewrite !elem_of_cons, elem_of_nil in Hw. destruct Hw as [-> | [-> | []]]; repeat (constructor; [unfold ident_char, ident_start; lia|]); constructor.
      - intros ->. apply Nr. by left. }
    destruct Hs as (c & t & -> & Hc & Ht). cbn [app] in *.
    assert (isdigit c = false /\ isspace c = false /\ c <> 43 /\ c <> 45) as (Hd & Hsp & Hp & Hm).
    { unfold isdigit, isspace. unfold ident_start in Hc. lia. }
    assert (m_int (c :: t ++ rest) = None) as Em.
    { unfold m_int. cbn [m_sign]. rewrite (proj2 (Z.eqb_neq c 43)), (proj2 (Z.eqb_neq c 45)) by done. cbn [orb drop run]. by rewrite Hd. }
    assert (match m_sfloat (c :: t ++ rest) with None => True | Some k => (k < length (c :: t))%nat end) as Wf.
    { unfold m_sfloat, m_word. cbn [m_sign]. rewrite (proj2 (Z.eqb_neq c 43)), (proj2 (Z.eqb_neq c 45)) by done. cbn [orb drop].
      unfold m_sdecimal. rewrite Em. cbn [mbind option_bind].
      pose proof (Wn [110; 97; 110] ltac:(left)) as W1. pose proof (Wn [105; 110; 102] ltac:(right; left)) as W2.
      destruct (m_nocase [110; 97; 110] (c :: t ++ rest)), (m_nocase [105; 110; 102] (c :: t ++ rest)); cbn [mbind option_bind longest Nat.add]; try done; lia. }
    unfold ident_start in Hc. destruct (m_schar_head c (t ++ rest) ltac:(lia)) as [E1 E2].
    change scm_rules with (take 14 (scm_rules (F := F)) ++ (m_id, fun txt => Some (Some (MtId txt))) :: drop 15 (scm_rules (F := F))).
    apply select_best; [exact Ei| |].
    - unfold scm_rules. cbn [take]. constructor; [cbn [fst]; by rewrite m_space_head|]. constructor; [cbn [fst]; by rewrite Em|].
      do 2 (constructor; [cbn [fst]; unfold m_shex, m_soct; rewrite m_hash_head; [done|lia|lia|lia]|]).
      constructor; [exact Wf|]. constructor; [cbn [fst]; apply Wl; right; left|]. constructor; [cbn [fst]; apply Wl; left|].
      constructor; [cbn [fst]; rewrite m_quoted_head; [done|lia]|].
      constructor; [cbn [fst]; by rewrite E1|]. constructor; [cbn [fst]; by rewrite E2|].
      constructor; [cbn [fst]; rewrite m_sattr_head; [done|lia]|].
      constructor; [cbn [fst]; rewrite m_scomment_head; [done|lia]|].
      constructor; [cbn [fst]; rewrite m_lp_head; [done|lia]|].
      constructor; [cbn [fst]; rewrite m_rp_head; [done|done|lia]|]. constructor.
    - unfold scm_rules. cbn [drop]. constructor; [cbn [fst]; by rewrite m_dot_head|]. constructor; [|constructor].
      cbn [fst length]. pose proof (m_any_head c (t ++ rest)). destruct (m_any (c :: t ++ rest)); [lia|done].
  Qed.

  (** Numbers. *)
  Lemma sstop_head rest : sstop rest -> match rest with c :: _ => ~ dig c | [] => True end.
  Proof. destruct rest; [done|]. cbn. unfold dig. lia. Qed.

  Lemma m_sfloat_ok neg ds fs es rest : ds <> [] -> Forall dig ds -> frac fs -> expo es -> sstop rest ->
    m_sfloat (sgn neg ++ ds ++ fs ++ es ++ rest) = Some (length (sgn neg ++ ds) + length fs + length es)%nat /\
    m_int (sgn neg ++ ds ++ fs ++ es ++ rest) = Some (length (sgn neg ++ ds)).
  Proof.
    intros N Fd Hf He Hs.
    assert (match fs ++ es ++ rest with x :: _ => ~ dig x | [] => True end) as H1.
    { destruct Hf as [-> | (l & -> & _)]; [|cbn; unfold dig; lia]. destruct He as [-> | (s & l & -> & _)]; [by apply sstop_head|cbn; unfold dig; lia]. }
    assert (match es ++ rest with x :: _ => ~ dig x | [] => True end) as H2.
    { destruct He as [-> | (s & l & -> & _)]; [by apply sstop_head|cbn; unfold dig; lia]. }
    pose proof (m_int_ok neg ds _ N Fd H1) as Ei. split; [|exact Ei].
    unfold m_sfloat. destruct ds as [|d ds]; [done|]. pose proof Fd as F0. apply Forall_cons in Fd as [Hd Fd].
    cbn [app] in *. rewrite !m_word_num by auto. unfold m_sdecimal. rewrite Ei. cbn [mbind option_bind].
    replace (drop (length (sgn neg ++ d :: ds)) (sgn neg ++ d :: ds ++ fs ++ es ++ rest)) with (fs ++ es ++ rest).
    2: { change (sgn neg ++ d :: ds ++ fs ++ es ++ rest) with (sgn neg ++ (d :: ds) ++ fs ++ es ++ rest). by rewrite (app_assoc (sgn neg)), drop_app. }
    assert (match fs ++ es ++ rest with 46 :: t' => S (run isdigit t') | _ => 0%nat end = length fs) as E1.
    { destruct Hf as [-> | (l & -> & Hl)].
      - cbn [app]. destruct He as [-> | (s & l & -> & _)]; [|done]. cbn [app]. destruct rest as [|c r]; [done|]. cbn in Hs. destruct Hs as [-> | [-> | ->]]; done.
      - cbn [app length]. f_equal. by apply run_digits. }
    rewrite E1. rewrite drop_app. do 2 f_equal.
    destruct He as [-> | (s & l & -> & Hs' & Nl & Hl)].
    - cbn [app]. destruct rest as [|c r]; [done|]. cbn in Hs. destruct Hs as [-> | [-> | ->]]; done.
    - cbn [app orb Z.eqb Pos.eqb]. rewrite <- app_assoc.
      assert (m_sign (s ++ l ++ rest) = 1%nat /\ length s = 1%nat /\ drop 1 (s ++ l ++ rest) = l ++ rest) as (-> & Ls & ->).
      { destruct Hs' as [-> | ->]; cbn; by rewrite drop_0. }
      pose proof (m_int_ok false l rest Nl Hl (sstop_head _ Hs)) as E. cbn [sgn app] in E. rewrite E. cbn [longest length]. rewrite (app_length s l), Ls. reflexivity.
  Qed.

  Lemma num_pre neg (c : Z) (t : list Z) n : dig c -> Forall (fun r => match r.1 (sgn neg ++ c :: t) with None => True | Some k => (k < n)%nat end)
    (take 1 (scm_rules (F := F))).
  Proof.
    intros H. unfold scm_rules. cbn [take]. constructor; [|constructor]. cbn [fst]. destruct neg; [done|]. cbn [sgn app]. rewrite m_space_head; [done|].
    unfold isspace. unfold dig in H. lia.
  Qed.
  Lemma num_hash neg (c : Z) (t : list Z) : dig c -> m_shex (sgn neg ++ c :: t) = None /\ m_soct (sgn neg ++ c :: t) = None.
  Proof. intros H. unfold m_shex, m_soct. split; by apply m_hash_num. Qed.
  Lemma num_post neg (c : Z) (t : list Z) n : dig c -> (1 <= n)%nat -> Forall (fun r => match r.1 (sgn neg ++ c :: t) with None => True | Some k => (k <= n)%nat end)
    (drop 5 (scm_rules (F := F))).
  Proof.
    intros H Hn.
    assert (forall x, x = 45 \/ dig x -> forall u, Forall (fun r => match r.1 (x :: u) with None => True | Some k => (k <= n)%nat end) (drop 5 (scm_rules (F := F)))) as G.
    { intros x Hx u. unfold dig in Hx. unfold scm_rules. cbn [drop].
      destruct (m_schar_head x u ltac:(lia)) as [E1 E2]. assert (isspace x = false) as Hs by (unfold isspace; lia).
      do 2 (constructor; [cbn [fst]; unfold txt_nil, txt_t; rewrite m_lit_head; [done|lia]|]).
      constructor; [cbn [fst]; rewrite m_quoted_head; [done|lia]|].
      constructor; [cbn [fst]; by rewrite E1|]. constructor; [cbn [fst]; by rewrite E2|].
      constructor; [cbn [fst]; rewrite m_sattr_head; [done|lia]|].
      constructor; [cbn [fst]; rewrite m_scomment_head; [done|lia]|].
      constructor; [cbn [fst]; rewrite m_lp_head; [done|lia]|].
      constructor; [cbn [fst]; rewrite m_rp_head; [done|done|lia]|].
      constructor; [cbn [fst]; rewrite m_id_head; [done|unfold isid, isalpha, isupper, islower; lia]|].
      constructor; [cbn [fst]; by rewrite m_dot_head|]. constructor; [|constructor].
      cbn [fst]. pose proof (m_any_head x u). destruct (m_any (x :: u)); [lia|done]. }
    destruct neg; cbn [sgn app]; apply G; auto.
  Qed.

  Lemma mlexes_int neg ds rest ts : plain ds -> sstop rest -> mlexes rest ts ->
    mlexes ((sgn neg ++ ds) ++ rest) (MtNum (VInt (to_signed ((if neg then - numeral_value 10 ds else numeral_value 10 ds) mod 2 ^ 128))) :: ts).
  Proof.
    intros P Hs R. pose proof P as (N & Fd & _).
    refine (lexes_tok scm_rules (sgn neg ++ ds) rest (scm_int 10) (Some (MtNum _)) ts _ _ _ R).
    - clear R. rewrite <- app_assoc.
      destruct (m_sfloat_ok neg ds [] [] rest N Fd (or_introl eq_refl) (or_introl eq_refl) Hs) as [Ef Ei]. cbn [app length] in Ef, Ei. rewrite !Nat.add_0_r in Ef.
      destruct ds as [|d ds]; [done|]. apply Forall_cons in Fd as [Hd Fd]. cbn [app] in *.
      destruct (num_hash neg d (ds ++ rest) Hd) as [E1 E2].
      change scm_rules with (take 1 (scm_rules (F := F)) ++ (m_int, scm_int 10) :: drop 2 (scm_rules (F := F))).
      apply select_best; [exact Ei|by apply num_pre|].
      change (drop 2 (scm_rules (F := F))) with ([(m_shex, scm_hash 16 1); (m_soct, scm_hash 8 2); (m_sfloat, fun txt => Some (Some (MtNum (VFloat (strtold (txt ++ [0])).1))))] ++ drop 5 (scm_rules (F := F))).
      apply Forall_app. split; [|apply num_post; [done|rewrite app_length; cbn; lia]].
      constructor; [cbn [fst]; by rewrite E1|]. constructor; [cbn [fst]; by rewrite E2|]. constructor; [cbn [fst]; by rewrite Ef|constructor].
    - destruct neg, ds; done.
    - unfold scm_int. pose proof (parse_decimal neg ds _ [] 10 (plain_decimal ds P) (or_intror eq_refl)) as E.
      replace ((sgn neg ++ ds) ++ [0]) with ((if neg then [45] else []) ++ ds ++ 0 :: []) by (rewrite <- app_assoc; done).
      rewrite E. done.
  Qed.

  Lemma mlexes_float neg ds fs es rest ts : ds <> [] -> Forall dig ds -> frac fs -> expo es -> fs <> [] \/ es <> [] -> sstop rest -> mlexes rest ts ->
    mlexes ((sgn neg ++ ds ++ fs ++ es) ++ rest) (MtNum (VFloat (strtold ((sgn neg ++ ds ++ fs ++ es) ++ [0])).1) :: ts).
  Proof.
    intros N Fd Hf He Ne Hs R.
    refine (lexes_tok scm_rules (sgn neg ++ ds ++ fs ++ es) rest (fun txt => Some (Some (MtNum (VFloat (strtold (txt ++ [0])).1)))) (Some (MtNum _)) ts _ _ eq_refl R).
    - clear R. rewrite <- !app_assoc. destruct (m_sfloat_ok neg ds fs es rest N Fd Hf He Hs) as [Ef Ei].
      assert (length (sgn neg ++ ds) < length (sgn neg ++ ds) + length fs + length es)%nat as Lt by (destruct Ne as [Ne|Ne]; [destruct fs|destruct es]; cbn; try done; lia).
      replace (length (sgn neg ++ ds ++ fs ++ es)) with (length (sgn neg ++ ds) + length fs + length es)%nat by (rewrite !app_length; lia).
      destruct ds as [|d ds]; [done|]. apply Forall_cons in Fd as [Hd Fd]. cbn [app] in *.
      destruct (num_hash neg d (ds ++ fs ++ es ++ rest) Hd) as [E1 E2].
      change scm_rules with ((take 1 (scm_rules (F := F)) ++ [(m_int, scm_int 10); (m_shex, scm_hash 16 1); (m_soct, scm_hash 8 2)]) ++ (m_sfloat, fun txt => Some (Some (MtNum (VFloat (strtold (txt ++ [0])).1)))) :: drop 5 (scm_rules (F := F))).
      apply select_best; [exact Ef| |apply num_post; [done|lia]]. apply Forall_app. split; [by apply num_pre|].
      constructor; [cbn [fst]; by rewrite Ei|]. constructor; [cbn [fst]; by rewrite E1|]. constructor; [cbn [fst]; by rewrite E2|constructor].
    - destruct neg, ds; done.
  Qed.

  Lemma mlexes_special neg w rest ts : w = [110; 97; 110] \/ w = [105; 110; 102] -> sstop rest -> mlexes rest ts ->
    mlexes ((sgn neg ++ w) ++ rest) (MtNum (VFloat (strtold ((sgn neg ++ w) ++ [0])).1) :: ts).
  Proof.
    intros Hw Hs R.
    refine (lexes_tok scm_rules (sgn neg ++ w) rest (fun txt => Some (Some (MtNum (VFloat (strtold (txt ++ [0])).1)))) (Some (MtNum _)) ts _ _ eq_refl R).
    - clear R. destruct rest as [|c r]; [destruct Hw as [-> | ->], neg; reflexivity|]. cbn in Hs.
      destruct Hw as [-> | ->], neg; destruct Hs as [-> | [-> | ->]]; reflexivity.
    - destruct neg, Hw as [-> | ->]; done.
  Qed.

  Lemma mlexes_hex addr rest ts : 0 <= addr < 2 ^ 64 -> sstop rest -> mlexes rest ts ->
    mlexes (([35; 120] ++ hex_digits 16 addr) ++ rest) (MtNum (VInt addr) :: ts).
  Proof.
    intros Ha Hs R. destruct (hex_digits_ok 16 addr ltac:(lia) ltac:(change (16 ^ Z.of_nat 16) with (2 ^ 64); lia)) as (N & Fd & Fx & V).
    set (ds := hex_digits 16 addr) in *. clearbody ds.
    refine (lexes_tok scm_rules ([35; 120] ++ ds) rest (scm_hash 16 1) (Some (MtNum (VInt addr))) ts _ ltac:(done) _ R).
    - clear R. assert (m_shex ([35; 120] ++ ds ++ rest) = Some (length ([35; 120] ++ ds))) as E.
      { unfold m_shex, m_hash. cbn [m_sign app Z.eqb Pos.eqb orb drop].
        rewrite (run_app _ ds rest); [|done|]. { destruct ds; [done|]. cbn. done. }
        destruct rest as [|c r]; [done|]. cbn in Hs. destruct Hs as [-> | [-> | ->]]; done. }
      rewrite <- app_assoc. cbn [app] in *.
      change scm_rules with (take 2 (scm_rules (F := F)) ++ (m_shex, scm_hash 16 1) :: drop 3 (scm_rules (F := F))).
      apply select_best; [exact E| |].
      + unfold scm_rules. cbn [take]. do 2 (constructor; [exact I|]). constructor.
      + unfold scm_rules. cbn [drop]. do 13 (constructor; [exact I|]). constructor; [cbn; lia|constructor].
    - unfold scm_hash. cbn [app take replicate drop Nat.add]. unfold scm_int. rewrite parse_hex by done. cbn [mbind option_bind fst]. do 4 f_equal.
      rewrite V. rewrite Z.mod_small by lia. unfold Json.to_signed. destruct (Z.ltb_spec addr (2 ^ 127)); [done|lia].
  Qed.

  (** Literals. *)
  Lemma mlexes_string content rest ts : lex_literal 34 (content ++ 34 :: rest) = Some (content, rest) ->
    mlexes rest ts -> mlexes ((34 :: content ++ [34]) ++ rest) (MtStr content :: ts).
  Proof.
    intros E R.
    refine (lexes_tok scm_rules (34 :: content ++ [34]) rest (fun txt => Some (Some (MtStr (unquoted txt)))) (Some (MtStr content)) ts _ ltac:(done) _ R).
    - clear R. cbn [app]. rewrite <- app_assoc. cbn [app].
      assert (m_quoted 34 (34 :: content ++ 34 :: rest) = Some (length (34 :: content ++ [34]))) as Em.
      { cbn [m_quoted]. rewrite Z.eqb_refl, E. cbn [mbind option_bind fst length]. rewrite app_length. cbn. f_equal. lia. }
      change scm_rules with (take 7 (scm_rules (F := F)) ++ (m_quoted 34, fun txt => Some (Some (MtStr (unquoted txt)))) :: drop 8 (scm_rules (F := F))).
      apply select_best; [exact Em| |].
      + unfold scm_rules. cbn [take]. do 7 (constructor; [exact I|]). constructor.
      + unfold scm_rules. cbn [drop]. do 8 (constructor; [exact I|]). constructor; [cbn; lia|constructor].
    - by rewrite unquoted_ok.
  Qed.

  Lemma mlexes_char ip c rest ts : is_byte c -> ip 10 = false -> sstop rest -> mlexes rest ts ->
    mlexes (scm_print_char ip c ++ rest) (MtChar (VChar c) :: ts).
  Proof.
    intros Hc Hp Hs R.
    assert (scm_read_char (scm_print_char ip c) = Some (c, [])) as Er.
    { pose proof (scm_char_ok ip c [] Hc Hp I) as E. by rewrite app_nil_r in E. }
    refine (lexes_tok scm_rules (scm_print_char ip c) rest scm_char (Some (MtChar (VChar c))) ts _ _ _ R).
    - clear R. unfold scm_print_char in *. destruct (ip c) eqn:Ec; cbn [app].
      + assert (c <> 10) as N10 by congruence.
        change scm_rules with (take 8 (scm_rules (F := F)) ++ (m_schar, scm_char) :: drop 9 (scm_rules (F := F))).
        apply select_best.
        * cbn [m_schar length]. by rewrite (proj2 (Z.eqb_neq c 10)).
        * unfold scm_rules. cbn [take]. do 8 (constructor; [exact I|]). constructor.
        * assert (m_sxchar (35 :: 92 :: c :: rest) = None) as Ex.
          { unfold m_sxchar. destruct (decide (c = 120)) as [->|Nc].
            - destruct rest as [|a [|b r]]; [done|done|]. cbn in Hs. destruct Hs as [-> | [-> | ->]]; done.
            - clear -Nc. destruct c as [|q|q]; [done| |done]. repeat (destruct q as [q|q|]; try reflexivity; try lia). }
          unfold scm_rules. cbn [drop]. constructor; [cbn [fst]; by rewrite Ex|]. do 6 (constructor; [exact I|]). constructor; [cbn; lia|constructor].
      + unfold is_byte in Hc.
        assert (0 <= c / 16 < 16) by (split; [apply Z.div_pos; lia|apply Z.div_lt_upper_bound; lia]).
        assert (0 <= c mod 16 < 16) by (apply Z.mod_pos_bound; lia).
        destruct (hex_digit_in (c / 16)) as (_ & _ & X1); [lia|]. destruct (hex_digit_in (c mod 16)) as (_ & _ & X2); [lia|].
        change scm_rules with (take 9 (scm_rules (F := F)) ++ (m_sxchar, scm_char) :: drop 10 (scm_rules (F := F))).
        apply select_best.
        * cbn [m_sxchar length]. by rewrite X1, X2.
        * unfold scm_rules. cbn [take]. do 8 (constructor; [exact I|]). constructor; [cbn; lia|constructor].
        * unfold scm_rules. cbn [drop]. do 6 (constructor; [exact I|]). constructor; [cbn; lia|constructor].
    - unfold scm_print_char. by destruct (ip c).
    - unfold scm_char. by rewrite Er.
  Qed.

  (** Attributes. *)
  Definition sattr_txt (nm ds : list Z) : list Z := [59; 40] ++ nm ++ [32; 46; 32] ++ ds ++ [41].

  Lemma after_char_ok x l rest : Forall (fun c => c <> x) l -> after_char x (l ++ x :: rest) = rest.
  Proof. induction 1 as [|c l Hc _ IH]; cbn [app after_char]; [by rewrite Z.eqb_refl|]. by rewrite (proj2 (Z.eqb_neq c x)) by done. Qed.

  Lemma m_sattr_ok nm ds w rest : identifier nm -> plain ds -> blanks w -> nospace rest ->
    m_sattr (sattr_txt nm ds ++ w ++ rest) = Some (length (sattr_txt nm ds ++ w)).
  Proof.
    intros Hn (N & Fd & _) B H. unfold sattr_txt. rewrite <- !app_assoc. cbn [app].
    pose proof (m_id_ok nm (32 :: 46 :: 32 :: ds ++ 41 :: w ++ rest) Hn ltac:(done)) as Ei.
    pose proof (m_uint_ok ds (41 :: w ++ rest) N Fd ltac:(unfold dig; lia)) as Eu.
    assert (m_ws m_id (nm ++ 32 :: 46 :: 32 :: ds ++ 41 :: w ++ rest) = Some (length nm)) as E1.
    { destruct Hn as (c & t & -> & Hc & _). cbn [app] in *. apply m_ws_one; [unfold isspace; unfold ident_start in Hc; lia|done]. }
    assert (m_ws m_uint (32 :: ds ++ 41 :: w ++ rest) = Some (S (length ds))) as E2.
    { destruct ds as [|d ds]; [done|]. apply Forall_cons in Fd as [Hd Fd]. cbn [app] in *. apply m_ws_space; [unfold isspace; unfold dig in Hd; lia|done]. }
    change (59 :: 40 :: nm ++ 32 :: 46 :: 32 :: ds ++ 41 :: w ++ rest) with ([59] ++ [40] ++ nm ++ [32; 46] ++ (32 :: ds) ++ [41] ++ w ++ rest).
    unfold m_sattr. erewrite m_seq_app; [|done|]; cycle 1.
    { apply m_seq_app; [done|]. apply m_seq_app; [exact E1|]. apply m_seq_app; [by apply m_ws_space|]. apply m_seq_app; [exact E2|].
      apply m_seq_app; [by apply m_ws_one|]. unfold m_spaces. by rewrite blanks_run. }
    f_equal. cbn [length]. repeat (rewrite !app_length; cbn [length]). lia.
  Qed.

  Lemma strtoull0_num ds c t : plain ds -> ~ dig c -> c <> 120 -> c <> 88 -> numeral_value 10 ds < 2 ^ 32 -> strtoull0 (32 :: ds ++ c :: t) = numeral_value 10 ds.
  Proof.
    intros (N & Fd & Hz) Nc Nx NX L. destruct ds as [|d ds]; [done|]. apply Forall_cons in Fd as Fd'. destruct Fd' as [Hd _]. unfold strtoull0.
    assert (run isspace (32 :: (d :: ds) ++ c :: t) = 1%nat) as ->.
    { cbn [run app]. change (isspace 32) with true. cbv iota. by replace (isspace d) with false by (unfold isspace; unfold dig in Hd; lia). }
    cbn [drop]. rewrite drop_0. cbn [app].
    assert (0 <= numeral_value 10 (d :: ds)) as G.
    { rewrite <- digits_value_ok by done. unfold digits_value.
      assert (forall v, 0 <= v -> 0 <= foldl (fun v c => v * 10 + (c - 48)) v (d :: ds)) as G; [|by apply G].
      clear -Fd. induction Fd as [|c l Hc _ IH]; intros v Hv; [done|]. cbn [foldl]. apply IH. unfold dig in Hc. lia. }
    assert (match d :: ds ++ c :: t with
      | 48 :: u => digits_value 8 (take (run (fun c => (48 <=? c) && (c <=? 55)) u) u)
      | _ => digits_value 10 (take (run isdigit (d :: ds ++ c :: t)) (d :: ds ++ c :: t)) end = numeral_value 10 (d :: ds)) as ->.
    { destruct (decide (d = 48)) as [->|Nd].
      - injection (Hz eq_refl) as ->. cbn [app run]. unfold dig in Nc. by replace ((48 <=? c) && (c <=? 55)) with false by lia.
      - assert (digits_value 10 (take (run isdigit (d :: ds ++ c :: t)) (d :: ds ++ c :: t)) = numeral_value 10 (d :: ds)) as E.
        { change (d :: ds ++ c :: t) with ((d :: ds) ++ c :: t). rewrite run_digits; [|done|done]. rewrite take_app. by apply digits_value_ok. }
        rewrite <- E. clear -Nd. destruct d as [|p|p]; [done| |done]. repeat (destruct p as [p|p|]; try reflexivity; try lia). }
    rewrite Z.min_l by lia. apply Z.mod_small. lia.
  Qed.

  Lemma get_id_ok nm c t : identifier nm -> isident c = false -> get_id (nm ++ c :: t) = nm.
  Proof.
    intros Hn Hc. unfold get_id.
    assert (run isspace (nm ++ c :: t) = 0%nat) as ->.
    { destruct Hn as (d & u & -> & Hd & _). cbn [app run]. unfold ident_start in Hd. by replace (isspace d) with false by (unfold isspace; lia). }
    rewrite drop_0. rewrite (run_app _ nm (c :: t)); [by rewrite take_app| |done].
    apply identifier_chars in Hn. eapply Forall_impl; [exact Hn|]. intros x Hx. by apply ident_char_is.
  Qed.

  Lemma mlexes_attr nm ds w rest ts : identifier nm -> plain ds -> numeral_value 10 ds < 2 ^ 32 -> blanks w -> head w = Some 10 -> nospace rest ->
    mlexes rest ts -> mlexes (sattr_txt nm ds ++ w ++ rest) (MtAttr nm (numeral_value 10 ds) :: ts).
  Proof.
    intros Hn P L B Hw H R.
    pose proof (identifier_chars nm Hn) as Hc.
    assert (Forall (fun c => c <> 10 /\ c <> 46) nm) as N1 by (eapply Forall_impl; [exact Hc|]; unfold ident_char, ident_start; cbn; intros; lia).
    pose proof P as (_ & Fd & _).
    assert (Forall (fun c => c <> 10) ds) as N2 by (eapply Forall_impl; [exact Fd|]; unfold dig; cbn; intros; lia).
    rewrite app_assoc.
    refine (lexes_tok scm_rules (sattr_txt nm ds ++ w) rest (fun txt => Some (Some (MtAttr (get_id (after_char 40 txt)) (strtoull0 (after_char 46 txt))))) (Some (MtAttr nm (numeral_value 10 ds))) ts _ ltac:(done) _ R).
    - clear R. rewrite <- app_assoc. pose proof (m_sattr_ok nm ds w rest Hn P B H) as E.
      change scm_rules with (take 10 (scm_rules (F := F)) ++ (m_sattr, fun txt => Some (Some (MtAttr (get_id (after_char 40 txt)) (strtoull0 (after_char 46 txt))))) :: drop 11 (scm_rules (F := F))).
      apply select_best; [exact E| |].
      + unfold scm_rules. cbn [take]. do 10 (constructor; [exact I|]). constructor.
      + unfold scm_rules. cbn [drop]. constructor.
        * cbn [fst].
          assert (m_scomment (sattr_txt nm ds ++ w ++ rest) = Some (length (sattr_txt nm ds ++ w))) as ->; [|done].
          unfold m_scomment. change (sattr_txt nm ds ++ w ++ rest) with ([59] ++ ([40] ++ nm ++ [32; 46; 32] ++ ds ++ [41]) ++ w ++ rest).
          erewrite m_seq_app; [|done|]; cycle 1.
          { apply m_seq_app; [|unfold m_spaces; by rewrite blanks_run]. cbv beta. f_equal. apply run_app.
            - apply Forall_app. split; [by repeat constructor|]. apply Forall_app. split; [eapply Forall_impl; [exact N1|]; cbn; intros; lia|].
              apply Forall_app. split; [by repeat constructor|]. apply Forall_app. split; [eapply Forall_impl; [exact N2|]; cbn; intros; lia|by repeat constructor].
            - destruct w as [|c w]; [done|]. by injection Hw as ->. }
          f_equal. unfold sattr_txt. repeat (rewrite !app_length; cbn [length]). lia.
        * do 4 (constructor; [exact I|]). constructor; [|constructor]. cbn. lia.
    - assert (after_char 40 (sattr_txt nm ds ++ w) = nm ++ 32 :: 46 :: 32 :: ds ++ 41 :: w) as ->.
      { unfold sattr_txt. rewrite <- !app_assoc. reflexivity. }
      assert (after_char 46 (sattr_txt nm ds ++ w) = 32 :: ds ++ 41 :: w) as ->.
      { unfold sattr_txt. rewrite <- !app_assoc.
        replace ([59; 40] ++ nm ++ [32; 46; 32] ++ ds ++ [41] ++ w) with (([59; 40] ++ nm ++ [32]) ++ 46 :: [32] ++ ds ++ [41] ++ w) by (by rewrite <- !app_assoc).
        rewrite after_char_ok; [done|]. apply Forall_app. split; [repeat constructor; lia|]. apply Forall_app. split; [eapply Forall_impl; [exact N1|]; cbn; intros; lia|repeat constructor; lia]. }
      rewrite get_id_ok by done. rewrite strtoull0_num; [done|done|unfold dig; lia|lia|lia|done].
  Qed.
End Lex.
