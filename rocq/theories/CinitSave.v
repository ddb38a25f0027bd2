(** The text mr_cinit_save prints, read back. *)
From Verif Require Import Base Ptrs NumStr NumStrProof Enum EnumProof Quote QuoteProof Parse ParseProof Json LexProof JsonLex JsonSpec JsonSave Value ValueProof Cinit CinitParse CinitSpec CinitLex DfsProof.
Local Open Scope Z_scope.

Lemma nz_spaces n : nz (spaces n). Proof. apply Forall_replicate. lia. Qed.
Lemma dig_nz ds : Forall dig ds -> nz ds.
Proof. intros F. eapply Forall_impl; [exact F|]. unfold dig. intros; lia. Qed.

Lemma phrase_top {F : Type} `{FL : Floats F} (tx : list (@ctok F)) x : phrase 3 tx x -> phrase 0 tx x.
Proof. intros H. do 3 (apply P_up; [lia|]). exact H. Qed.

Section Save.
  Context {F : Type} `{FL : Floats F}.
  Context (isprint : Z -> bool) (known : option (list Z) -> list Z -> bool) (ktype : list Z -> bool) (wrapv : bool) (e : env).
  Context (buf : list Z) (ns : list node) (js : list sinfo).
  Context (Hbuf : length buf = print_buffer) (Hprint : isprint 0 = false).
  Notation print := (cinit_print_node isprint wrapv buf js).
  Notation clexes := (lexes (cinit_rules (F := F))).
  Notation good := (doc_all (cgood (F := F) known ktype wrapv e)).
  Notation vinfo := (val_info (F := F) wrapv e).

  (** A leaf: its text is one value. *)
  Definition leaf_text (h : list Z) (v : cval (F := F)) : Prop :=
    nz h /\ cgood known ktype wrapv e (CPay None [] None v) [] /\
    forall rest ts, cstop rest -> clexes rest ts -> clexes (h ++ rest) (vtoks v [] ++ ts).

  (** Part of an expression. *)
  Definition item (h : list Z) (tx : list (@ctok F)) (x : expr F) (v : value F) : Prop :=
    nz h /\ phrase 3 tx x /\ eval wrapv e x = Some v /\ accepted v = true /\
    forall rest ts, cstop rest -> clexes rest ts -> clexes (h ++ rest) (tx ++ ts).

  Lemma item_leaf h tx x v : item h tx x v -> leaf_text h (DExpr tx x) /\ c_val (vinfo (DExpr tx x)) = v /\ c_null (vinfo (DExpr tx x)) = false.
  Proof.
    intros (N & P & E & A & L). split; [|cbn; by rewrite E]. split; [done|]. split; [|exact L].
    split; [done|]. cbn. split; [done|]. split; [by apply phrase_top|]. by exists v.
  Qed.

  Lemma leaf_null : leaf_text txt_NULL DNull.
  Proof.
    split; [repeat constructor; lia|]. split; [done|]. intros rest ts St R. apply clexes_word; [mem|done|done].
  Qed.

  Lemma signed_same z : same_int (to_signed (z mod 2 ^ 128)) z.
  Proof.
    destruct (to_signed_spec (z mod 2 ^ 128)) as [R [k E]]. split; [exact R|]. rewrite E, Z_mod_plus_full. apply Z.mod_mod. lia.
  Qed.

  Lemma sgn_nz neg ds : nz ds -> nz (sgn neg ++ ds).
  Proof. intros H. apply nz_app. split; [destruct neg; repeat constructor; lia|done]. Qed.

  Lemma item_int (neg : bool) ds : plain ds -> (neg = true -> wrapv = true /\ numeral_value 10 ds <= 2 ^ 127 \/ numeral_value 10 ds < 2 ^ 127) ->
    0 <= numeral_value 10 ds ->
    exists tx x z, item (sgn neg ++ ds) tx x (VInt z) /\ same_int z (if neg then - numeral_value 10 ds else numeral_value 10 ds).
  Proof.
    intros P Hn Nn. pose proof P as (N & Fd & _). destruct neg; cbn [sgn app].
    - specialize (Hn eq_refl). set (m := numeral_value 10 ds) in *.
      assert (exists z, int_result wrapv (- to_signed (m mod 2 ^ 128)) = Some z /\ same_int z (- m)) as (z & Ez & Sz).
      { assert (m mod 2 ^ 128 = m) as -> by (apply Z.mod_small; lia).
        destruct (decide (m = 2 ^ 127)) as [-> |Nm].
        - destruct Hn as [[-> _]|]; [|lia]. exists (- 2 ^ 127). split; [reflexivity|]. split; [lia|done].
        - exists (- m). assert (to_signed m = m) as -> by (rewrite <- (Z.mod_small m (2 ^ 128)) at 1 by lia; apply to_signed_mod; unfold int128; lia).
          split; [apply int_result_in; unfold int128; lia|]. split; [lia|done]. }
      exists [CtOp OpMinus; CtNum (Num (m mod 2 ^ 128))], (Neg (Num (m mod 2 ^ 128))), z. split; [|done].
      split; [constructor; [lia|by apply dig_nz]|]. split; [apply P_neg, P_num|]. split.
      { cbn [eval mbind option_bind value_neg]. by rewrite Ez. }
      split; [done|]. intros rest ts St R. cbn [app]. pose proof (clexes_uint ds rest ts P St R) as L. destruct ds as [|c ds]; [by destruct N|]. cbn [app] in *.
      apply clexes_minus; [by apply Forall_cons in Fd as [? _]|exact L].
    - exists [CtNum (Num (numeral_value 10 ds mod 2 ^ 128))], (Num (numeral_value 10 ds mod 2 ^ 128)), (to_signed (numeral_value 10 ds mod 2 ^ 128)). split; [|apply signed_same].
      split; [by apply dig_nz|]. split; [apply P_num|]. split; [done|]. split; [done|]. intros rest ts St R. by apply clexes_uint.
  Qed.

  Lemma numeral_nonneg ds : plain ds -> 0 <= numeral_value 10 ds.
  Proof.
    intros (_ & Fd & _). rewrite <- digits_value_ok by done. unfold digits_value.
    assert (forall v, 0 <= v -> 0 <= foldl (fun v c => v * 10 + (c - 48)) v ds) as G; [|by apply G].
    induction Fd as [|c l Hc _ IH]; intros v Hv; [done|]. cbn [foldl]. apply IH. unfold dig in Hc. lia.
  Qed.

  Lemma read_as_low t data : t <> NotInt -> - 2 ^ 127 <= read_as t data.
  Proof.
    intros Ht. assert (8 <= width t <= 128) as Hwd by (destruct t; cbn; try lia; done).
    pose proof (Z.pow_pos_nonneg 2 (width t)) as P1. pose proof (Z.pow_pos_nonneg 2 (width t - 1)) as P2. unfold read_as. destruct (is_signed t).
    - pose proof (Z.mod_pos_bound (data + 2 ^ (width t - 1)) (2 ^ width t) ltac:(lia)).
      assert (2 ^ (width t - 1) <= 2 ^ 127) by (apply Z.pow_le_mono_r; lia). lia.
    - pose proof (Z.mod_pos_bound data (2 ^ width t) ltac:(lia)). lia.
  Qed.

  Lemma item_number t data : t <> NotInt -> wrapv = true \/ - 2 ^ 127 < read_as t data ->
    exists h tx x z, print_number wrapv buf t data = Some h /\ item h tx x (VInt z) /\ same_int z (read_as t data).
  Proof.
    intros Ht Hw. destruct (print_int_ok (fun _ => true) isprint wrapv buf Hbuf Hprint t data Ht Hw) as (neg & ds & E & P & V).
    destruct (item_int neg ds P) as (tx & x & z & I & S).
    - intros ->. pose proof (read_as_low t data Ht). destruct Hw as [-> |Hw]; [left; split; [done|lia]|right; lia].
    - by apply numeral_nonneg.
    - exists (sgn neg ++ ds), tx, x, z. rewrite V in S. done.
  Qed.

  Lemma item_name nm : usable nm -> item nm [CtId nm] (Id (nm ++ [0]) (length nm)) (VId (nm ++ [0]) (length nm)).
  Proof.
    intros U. pose proof U as [I _]. split.
    { apply identifier_chars in I. eapply Forall_impl; [exact I|]. unfold ident_char, ident_start. cbn. intros; lia. }
    split; [apply P_id|]. split; [done|]. split; [done|]. intros rest ts (c & r & -> & Hc) R. apply clexes_id; [done| |done].
    destruct Hc as [-> | [-> | ->]]; done.
  Qed.
  Lemma name_int nm z : names e nm z -> is_int (F := F) e (VId (nm ++ [0]) (length nm)) z.
  Proof. intros N. right. eexists _, _. split; [done|]. apply value_id_ok; [|done]. by exists 0, []. Qed.

  Lemma names_items l zs : Forall usable l -> Forall2 (names e) l zs -> Forall2 (fun h z => exists tx x v, item h tx x v /\ is_int e v z) l zs.
  Proof.
    intros Us Nm. induction Nm as [|nm z l zs Hz _ IH]; [constructor|]. apply Forall_cons in Us as [U Us]. constructor; [|by apply IH].
    eexists _, _, _. split; [by apply item_name|by apply name_int].
  Qed.

  (** Items with "|" between them. *)
  Lemma lor_foldr l : forall a r, Z.lor a (foldr Z.lor r l) = foldr Z.lor (Z.lor a r) l.
  Proof. induction l as [|z l IH]; intros a r; [done|]. cbn [foldr]. rewrite <- IH, Z.lor_assoc, (Z.lor_comm a z), <- Z.lor_assoc. done. Qed.

  Lemma chain hs zs : Forall2 (fun h z => exists tx x v, item h tx x v /\ is_int e v z) hs zs ->
    forall ta a va za, phrase 0 ta a -> eval wrapv e a = Some va -> accepted va = true -> is_int e va za -> hs <> [] ->
    exists tb x, phrase 0 (ta ++ tb) x /\ eval wrapv e x = Some (VInt (foldr Z.lor za zs)) /\ nz (txt_or ++ join txt_or hs) /\
      forall rest ts, cstop rest -> clexes rest ts -> clexes (txt_or ++ join txt_or hs ++ rest) (tb ++ ts).
  Proof.
    induction 1 as [|h z hs zs (tx & x & v & (N & P & E & A & L) & I) H IH]; intros ta a va za Pa Ea Aa Ia Ne; [done|].
    assert (phrase 0 (ta ++ CtOp OpOr :: tx) (op_expr OpOr a x)) as P1.
    { apply (P_op OpOr); [done|]. cbn. do 2 (apply P_up; [lia|]). done. }
    assert (eval wrapv e (op_expr OpOr a x) = Some (VInt (Z.lor za z))) as E1.
    { cbn [op_expr eval]. rewrite Ea, E. cbn [mbind option_bind]. by rewrite (value_int_op_int e Or va v za z). }
    destruct hs as [|h' hs].
    - apply Forall2_nil_inv_l in H as ->. exists (CtOp OpOr :: tx), (op_expr OpOr a x). split; [done|]. split; [rewrite E1; cbn; by rewrite Z.lor_comm|].
      cbn [join]. split; [apply nz_app; split; [repeat constructor; discriminate|done]|].
      intros rest ts St R. cbn [app txt_or]. apply clexes_space; [done|]. apply clexes_punct; [mem|]. apply clexes_space; [done|]. by apply L.
    - destruct (IH _ _ _ _ P1 E1 eq_refl (or_introl eq_refl) ltac:(done)) as (tb & y & P2 & E2 & N2 & L2).
      exists (CtOp OpOr :: tx ++ tb), y. split; [by rewrite <- app_assoc in P2|]. split.
      { rewrite E2. do 2 f_equal. cbn [foldr]. by rewrite lor_foldr, (Z.lor_comm za z). }
      change (join txt_or (h :: h' :: hs)) with (h ++ txt_or ++ join txt_or (h' :: hs)). split.
      { apply nz_app. split; [repeat constructor; discriminate|]. by apply nz_app. }
      intros rest ts St R. cbn [app txt_or]. apply clexes_space; [done|]. apply clexes_punct; [mem|]. apply clexes_space; [done|].
      rewrite <- !app_assoc. apply L; [|by apply L2]. eexists _, _. split; [reflexivity|auto].
  Qed.

  Lemma leaf_names l zs r hr : Forall usable l -> Forall2 (names e) l zs -> l <> [] ->
    (l = [] ++ l /\ hr = [] /\ r = 0 \/ exists h tx x, hr = [h] /\ item h tx x (VInt r)) ->
    (2 <= length (l ++ hr))%nat ->
    exists v, leaf_text (join txt_or (l ++ hr)) v /\ c_val (vinfo v) = VInt (foldr Z.lor r zs) /\ c_null (vinfo v) = false.
  Proof.
    intros U Nm Ne Hr Le. destruct Nm as [|nm z l zs Hz Nm]; [done|]. apply Forall_cons in U as [U Us].
    destruct (item_name nm U) as (N & P & E & A & L).
    assert (exists zr, Forall2 (fun h z => exists tx x v, item h tx x v /\ is_int e v z) hr zr /\ foldr Z.lor 0 zr = r) as (zr & Fr & Er).
    { destruct Hr as [(_ & -> & ->)|(h & tx & x & -> & I)]; [exists []; by split|]. exists [r]. split; [|cbn; apply Z.lor_0_r].
      constructor; [|constructor]. exists tx, x, (VInt r). split; [done|by left]. }
    assert (Forall2 (fun h z => exists tx x v, item h tx x v /\ is_int e v z) (l ++ hr) (zs ++ zr)) as Fa.
    { apply Forall2_app; [by apply names_items|done]. }
    destruct (chain _ _ Fa _ _ _ _ (phrase_top _ _ P) E A (name_int nm z Hz)) as (tb & x & P2 & E2 & N2 & L2).
    { cbn in Le. destruct (l ++ hr); [cbn in Le; lia|done]. }
    exists (DExpr ([CtId nm] ++ tb) x).
    assert (join txt_or ((nm :: l) ++ hr) = nm ++ txt_or ++ join txt_or (l ++ hr)) as ->.
    { cbn [app]. destruct (l ++ hr) eqn:El; [cbn in Le; rewrite El in Le; cbn in Le; lia|done]. }
    split.
    - split; [by apply nz_app|]. split; [split; [done|]; cbn; split; [done|]; split; [done|]; eauto|].
      intros rest ts St R. cbn [vtoks]. rewrite <- !app_assoc. apply L; [|by apply L2]. eexists _, _. split; [reflexivity|auto].
    - split; [|done]. cbn [val_info cset_val c_val]. rewrite E2. unfold default, id. f_equal. rewrite foldr_app. cbn [foldr].
      assert (foldr Z.lor z zr = Z.lor z r) as ->.
      { rewrite <- Er. rewrite lor_foldr. by rewrite Z.lor_0_r. }
      symmetry. apply lor_foldr.
  Qed.

  Lemma quoted_nz q c : q = 34 \/ q = 39 -> is_byte c -> nz (quote_char CINIT isprint q c).
  Proof.
    intros Hq Hc. destruct (quote_cases CINIT isprint q c Hq) as [(m & -> & Hm & _)|[(-> & _ & _ & _ & P)|(-> & _)]].
    - repeat constructor; [lia|]. intros ->. destruct Hm as [[? ?]|[Hm ?]]; [lia|]. by cbv in Hm; subst c.
    - repeat constructor. intros ->. congruence.
    - unfold is_byte in Hc. unfold char_pattern. cbn.
      assert (0 <= c / 64 mod 8 < 8 /\ 0 <= c / 8 mod 8 < 8 /\ 0 <= c mod 8 < 8) as (? & ? & ?).
      { split; [|split]; apply Z.mod_pos_bound; lia. }
      assert (0 <= c / 64 < 4) by (split; [apply Z.div_pos; lia|apply Z.div_lt_upper_bound; lia]).
      repeat constructor; lia.
  Qed.

  Lemma leaf_string s : Forall (fun c => 0 < c < 256) s -> octal_safe isprint s ->
    exists v, leaf_text (quote_string CINIT isprint s) v /\ c_null (vinfo v) = false /\
      (c_val (vinfo v) = VString (s ++ [0]) \/ c_val (vinfo v) = VSubstr (s ++ [34; 0]) (length s)).
  Proof.
    intros Hs Ho. assert (Forall is_byte s) as Hb by (eapply Forall_impl; [exact Hs|]; unfold is_byte; cbn; intros; lia).
    set (body := concat (map (quote_char CINIT isprint 34) s)).
    assert (exists v, cinit_string (F := F) body = Some v /\ (v = VString (s ++ [0]) \/ v = VSubstr (s ++ [34; 0]) (length s))) as (v & Ev & Hv).
    { unfold cinit_string. destruct (existsb (Z.eqb 92) body) eqn:E.
      - pose proof (unquote_ok CINIT isprint s [] [] (S (length body)) Hb ltac:(done)) as U. fold body in U.
        cbn [app length] in U. cbv zeta in U. cbn [Nat.add] in U. rewrite U; [|pose proof (quoted_length CINIT isprint s); subst body; lia].
        cbn [mbind option_bind]. eexists. split; [done|]. left. do 2 f_equal. apply c_string_id. eapply Forall_impl; [exact Hs|]. cbn. intros; lia.
      - pose proof (no_backslash CINIT isprint s E) as E'. fold body in E'. rewrite E'. eexists. split; [done|]. by right. }
    exists (DStr body). split; [|cbn; rewrite Ev; by split].
    split; [|split; [split; [done|]; cbn; split; [done|by exists v]|]].
    - eapply Forall_impl; [exact (quoted_chars CINIT isprint s Hb)|]. cbn. intros x [P| ?] ->; [congruence|lia].
    - intros rest ts _ R. unfold quote_string. cbn [app vtoks]. rewrite <- app_assoc. apply (clexes_quoted 34 CtStr); [by left| |done].
      by apply lex_string.
  Qed.

  Lemma leaf_char c : 0 <= c < 256 -> exists v, leaf_text (cinit_print_char isprint c) v /\ c_null (vinfo v) = false /\ c_val (vinfo v) = VChar c.
  Proof.
    intros Hc. set (body := quote_char CINIT isprint 39 c).
    assert (cinit_char (F := F) body = Some (VChar c)) as Ev.
    { unfold cinit_char.
      assert (1 <= length body <= 4)%nat as L.
      { destruct (quote_cases CINIT isprint 39 c ltac:(by right)) as [(m & E & _)|[(E & _)|(E & _)]]; unfold body; rewrite E; cbn; lia. }
      destruct (Nat.ltb_spec 5 (length body)); [lia|].
      pose proof (unquote_step CINIT isprint 39 (length body) [] c [0] (length body)) as U. fold body in U.
      cbn [app length Nat.add] in U. rewrite U; [|by right|done|lia|intros _; cbn; lia].
      destruct (length body) as [|n] eqn:En; [lia|]. cbn [unquote_loop].
      destruct (Nat.ltb_spec (S n) (S n)); [lia|]. cbn [mbind option_bind c_string].
      destruct (Z.eqb_spec c 0) as [->|]; cbn; done. }
    exists (DChar body). split; [|cbn; rewrite Ev; by split].
    split; [|split; [split; [done|]; cbn; split; [done|by eexists]|]].
    - constructor; [lia|]. apply nz_app. split; [apply quoted_nz; [by right|done]|repeat constructor; lia].
    - intros rest ts _ R. unfold cinit_print_char. cbn [app vtoks]. rewrite <- app_assoc. apply (clexes_quoted 39 CtChar); [by right| |done].
      fold body. cbn [app]. unfold body. rewrite lex_char; [|by right|done]. cbn [lex_literal Z.eqb Pos.eqb mbind option_bind fst snd]. by rewrite app_nil_r.
  Qed.

  Lemma head_digit ds x : plain ds -> head (ds ++ x) <> Some 45.
  Proof. intros (N & Fd & _). destruct ds as [|c ds]; [done|]. apply Forall_cons in Fd as [Hc _]. cbn. unfold dig in Hc. intros [= ->]. lia. Qed.

  Lemma leaf_float txt : kind_ok isprint ktype wrapv e (CFloat txt) ->
    exists v, leaf_text txt v /\ leaf_read e (CFloat txt) (c_val (vinfo v)) (c_null (vinfo v)).
  Proof.
    assert (forall neg w, w = [110; 97; 110] \/ w = [105; 110; 102] -> exists v, leaf_text (minus neg ++ w) v /\ leaf_read e (CFloat (minus neg ++ w)) (c_val (vinfo v)) (c_null (vinfo v))) as Sp.
    { intros neg w Hw. set (f := VFloat (strtold ((minus neg ++ w) ++ [0])).1). exists (DExpr [CtNum (Flt f)] (Flt f)). split.
      - apply (item_leaf _ _ _ f). split; [|split; [apply P_num|split; [done|split; [done|]]]].
        + apply sgn_nz. destruct Hw as [-> | ->]; repeat constructor; lia.
        + intros rest ts St R. by apply (clexes_special neg w).
      - split; [done|]. exists neg, w. split; [done|]. split; [by destruct Hw as [-> | ->]|]. right. left. split; [destruct Hw as [-> | ->]; mem|done]. }
    intros [Ft Hneg]. destruct Ft as [neg|neg|neg ds P|neg ds fs es P Hf He Ne].
    - apply Sp. by left.
    - apply Sp. by right.
    - destruct (item_int neg ds P) as (tx & x & z & I & Sz).
      { intros ->. right. by apply (Hneg ds). }
      { by apply numeral_nonneg. }
      destruct (item_leaf _ _ _ _ I) as (L & E1 & E2). exists (DExpr tx x). split; [exact L|]. rewrite E1, E2. split; [done|]. exists neg, ds. split; [done|].
      split; [pose proof (head_digit ds [] P) as H; by rewrite app_nil_r in H|]. left. split; [done|]. by exists z.
    - pose proof P as (N & Fd & _). set (w := ds ++ fs ++ es). set (f := (strtold (w ++ [0])).1).
      assert (nz w) as Nw.
      { apply nz_app. split; [by apply dig_nz|]. apply nz_app. split.
        - destruct Hf as [-> |(l & -> & Fl)]; [constructor|]. constructor; [lia|by apply dig_nz].
        - destruct He as [-> |(s & l & -> & Hs & _ & Fl)]; [constructor|]. constructor; [lia|]. constructor; [lia|by apply dig_nz]. }
      assert (forall rest ts, cstop rest -> clexes rest ts -> clexes (w ++ rest) (CtNum (Flt (VFloat f)) :: ts)) as L.
      { intros rest ts St R. apply (clexes_ufloat ds fs es); [done..| |done|done|done].
        destruct He as [-> |(s & l & -> & Hs & Nl & Fl)]; [by left|]. right. exists [s], l. split; [done|]. split; [destruct Hs as [-> | ->]; auto|done]. }
      set (tx := if neg then [CtOp OpMinus; CtNum (Flt (VFloat f))] else [CtNum (Flt (VFloat f))]).
      set (x := if neg then Neg (Flt (VFloat f)) else Flt (VFloat f)).
      set (v := VFloat (if neg then f_neg f else f)).
      assert (item (minus neg ++ w) tx x v) as I.
      { split; [by apply sgn_nz|]. split; [subst tx x; destruct neg; [apply P_neg|]; apply P_num|]. split; [by subst x v; destruct neg|]. split; [done|].
        intros rest ts St R. specialize (L rest ts St R). subst tx. destruct neg; cbn [minus app]; [|exact L].
        unfold w in *. destruct ds as [|c ds]; [by destruct N|]. cbn [app] in *. apply clexes_minus; [by apply Forall_cons in Fd as [? _]|exact L]. }
      destruct (item_leaf _ _ _ _ I) as (Lt & E1 & E2). exists (DExpr tx x). split; [exact Lt|]. rewrite E1, E2. split; [done|]. exists neg, w. split; [done|].
      split; [by apply head_digit|]. right. right.
      assert (exists c, c ∈ w /\ ~ dig c /\ w <> [110; 97; 110] /\ w <> [105; 110; 102]) as (c & Ic & Nc & N1 & N2).
      { assert (w <> [110; 97; 110] /\ w <> [105; 110; 102]) as [? ?].
        { unfold w. destruct ds as [|c ds]; [done|]. apply Forall_cons in Fd as [Hc _]. unfold digit in Hc. split; intros [= -> _]; lia. }
        destruct Hf as [-> |(l & -> & Fl)].
        - destruct Ne as [?|Ne]; [done|]. destruct He as [-> |(s & l & -> & Hs & _ & Fl)]; [done|]. exists 101. split; [|split; [unfold dig; lia|done]].
          unfold w. apply elem_of_app. right. left.
        - exists 46. split; [|split; [unfold dig; lia|done]]. unfold w. apply elem_of_app. right. left. }
      split; [|split; [|done]].
      + intros (_ & Fw & _). rewrite Forall_forall in Fw. apply Nc. by apply Fw.
      + rewrite !elem_of_cons, elem_of_nil. tauto.
  Qed.

  Lemma leaf_ok k : kind_ok isprint ktype wrapv e k -> k <> CStruct -> (forall ty, k <> CPtr ty) -> exists h v,
    cinit_handler isprint wrapv buf k = Some (h, None) /\ leaf_text h v /\ leaf_read e k (c_val (vinfo v)) (c_null (vinfo v)).
  Proof.
    intros K N1 N2. destruct k as [|c|b|t data|txt|c|s|l rest| |ty]; try done.
    - destruct c.
      + exists [123; 125], (DBlock false). split; [done|]. split; [|done]. split; [repeat constructor; lia|]. split; [split; [done|]; cbn; split; [done|constructor]|].
        intros rest ts _ R. cbn [app vtoks]. apply clexes_punct; [mem|]. apply clexes_punct; [mem|done].
      + exists txt_NULL, DNull. split; [done|]. split; [apply leaf_null|done].
      + destruct (item_int false [48]) as (tx & x & z & I & Sz).
        { split; [done|]. split; [|done]. repeat constructor; cbn; lia. }
        { done. }
        { done. }
        destruct (item_leaf _ _ _ _ I) as (L & E1 & E2). exists [48], (DExpr tx x). split; [done|]. split; [exact L|]. cbn [leaf_read]. rewrite E1, E2. split; [|done].
        f_equal. destruct Sz as [R Sz]. change (numeral_value 10 [48] mod 2 ^ 128) with 0 in Sz. clear -R Sz.
        apply Z.mod_divide in Sz as [q ->]; [|lia]. assert (q = 0) by lia. lia.
    - set (x := Num (F := F) (if b then 1 else 0)).
      assert (item (if b then txt_true else txt_false) [CtNum x] x (VInt (if b then 1 else 0))) as I.
      { split; [destruct b; repeat constructor; lia|]. split; [apply P_num|]. split; [subst x; by destruct b|]. split; [done|].
        intros rest ts St R. cbn [app]. subst x. destruct b; apply clexes_word; try done; mem. }
      destruct (item_leaf _ _ _ _ I) as (L & E1 & E2). eexists _, (DExpr [CtNum x] x). split; [done|]. split; [exact L|]. cbn [leaf_read]. rewrite E1, E2. by destruct b.
    - destruct K as [Kt Kw]. destruct (item_number t data Kt Kw) as (h & tx & x & z & E & I & Sz).
      destruct (item_leaf _ _ _ _ I) as (L & E1 & E2). exists h, (DExpr tx x). cbn [cinit_handler]. rewrite E. split; [done|]. split; [exact L|].
      cbn [leaf_read]. rewrite E1, E2. split; [done|]. by exists z.
    - destruct (leaf_float txt K) as (v & L & R). exists txt, v. by split; [|split].
    - destruct (leaf_char c K) as (v & L & R). exists (cinit_print_char isprint c), v. by split; [|split].
    - destruct K as [K1 K2]. destruct (leaf_string s K1 K2) as (v & L & R). exists (quote_string CINIT isprint s), v. by split; [|split].
    - destruct K as (Ne & U & Kr & Kn).
      destruct (decide (length l = 1%nat /\ rest = None)) as [[L1 ->]|Nd].
      { destruct l as [|nm [|? ?]]; [done| |done]. apply Forall_cons in U as [U _].
        destruct (item_leaf _ _ _ _ (item_name nm U)) as (L & E1 & E2). eexists nm, _. split; [done|]. split; [exact L|]. cbn [leaf_read]. rewrite E1, E2.
        split; [done|]. left. by exists nm. }
      destruct Kn as [?|Kn]; [done|].
      assert (exists zs, Forall2 (names e) l zs) as [zs Hz].
      { clear -Kn. induction Kn as [|nm l [z Hz] _ [zs IH]]; [exists []; constructor|exists (z :: zs); by constructor]. }
      destruct rest as [[t data]|].
      + destruct Kr as [Kt Kw]. destruct (item_number t data Kt Kw) as (h & tx & x & r & E & I & Sr).
        destruct (leaf_names l zs r [h] U Hz Ne) as (v & L & E1 & E2).
        { right. by exists h, tx, x. }
        { rewrite app_length. cbn. destruct l; [done|cbn; lia]. }
        eexists _, v. cbn [cinit_handler]. rewrite E. split; [done|]. split; [exact L|]. cbn [leaf_read]. rewrite E1, E2. split; [done|]. right. by exists zs, r.
      + destruct (leaf_names l zs 0 [] U Hz Ne) as (v & L & E1 & E2).
        { by left. }
        { rewrite app_nil_r. destruct l as [|? [|? ?]]; [done| |cbn; lia]. by destruct Nd. }
        rewrite app_nil_r in L. eexists _, v. split; [done|]. split; [exact L|]. cbn [leaf_read]. rewrite E1, E2. split; [done|]. right. by exists zs, 0.
    - by destruct (N2 ty).
  Qed.

  (** ** Trees *)
  Context (t0 : tree) (Hpub : forall i m, i ∈ nodes t0 -> ns !! i = Some m -> Z.of_nat (pub_idx m) < 2 ^ 32).
  Context (Hin : forall i, i ∈ nodes t0 -> exists m, ns !! i = Some m).

  Definition name_text (d : sinfo) : list Z := if s_unnamed d then [] else 46 :: s_name d ++ [32; 61; 32].
  Definition own_name (d : sinfo) : option (list Z) := if s_unnamed d then None else Some (s_name d).

  (** An attribute. *)
  Lemma attr_text nm m : identifier nm -> Z.of_nat (pub_idx m) < 2 ^ 32 -> exists at_,
    attr_int wrapv buf nm (pub_idx m) = Some at_ /\ nz at_ /\
    forall rest ts, clexes rest ts -> clexes (at_ ++ rest) (CtAttr nm (Z.of_nat (pub_idx m)) :: ts).
  Proof.
    intros I L. destruct (pub_number (fun _ => true) isprint wrapv buf ns Hbuf Hprint t0 Hpub m L) as (ds & E & P & V).
    exists (attr_txt nm ds ++ [32]). unfold attr_int. rewrite E. cbn [mbind option_bind]. split; [unfold attr_txt; by rewrite <- !app_assoc|]. split.
    - apply nz_app. split; [|repeat constructor; discriminate]. unfold attr_txt. apply nz_app. split; [repeat constructor; discriminate|]. apply nz_app. split.
      { apply identifier_chars in I. eapply Forall_impl; [exact I|]. unfold ident_char, ident_start. cbn. intros; lia. }
      apply nz_app. split; [repeat constructor; discriminate|]. apply nz_app. split; [apply dig_nz, P|repeat constructor; discriminate].
    - intros rest ts R. rewrite <- app_assoc, <- V. apply clexes_attr; [done|done|lia|done].
  Qed.

  Lemma ident_ref : identifier txt_ref /\ identifier txt_ref_content /\ identifier txt_ref_idx.
  Proof.
    split; [|split]; (eexists _, _; split; [reflexivity|]; split; [unfold ident_start; lia|]); repeat (constructor; [unfold ident_char, ident_start; lia|]); constructor.
  Qed.

  (** What a printed node has to be read as, wherever it is. *)
  Definition creads (i : nat) (a : cpay (F := F)) : Prop := exists n d, ns !! i = Some n /\ js !! i = Some d /\
    forall k p nx fc, node_read e ns n d (cfin a k (blank p nx fc)) (cinf wrapv e a).

  (** The opening part of a node. *)
  Lemma pre_ok i par nxt ks : tree_at ns par nxt (T i ks) -> node_ok isprint known ktype wrapv e ns js t0 i -> i ∈ nodes t0 ->
    exists n d h cl at_ ats ca v, ns !! i = Some n /\ js !! i = Some d /\ next n = nxt /\ parent n = par /\
      (forall c lvl, cinit_pre isprint wrapv buf js ns c i lvl =
         Some (c.1 ++ spaces (indent lvl) ++ name_text d ++ at_ ++ h, (i, cl) :: c.2)) /\
      creads i (CPay (own_name d) ats ca v) /\
      (s_unnamed d = false -> usable (s_name d) /\ known (c_type (cbody wrapv e (CPay (own_name d) ats ca v))) (s_name d) = true /\ par <> 0%nat) /\
      match ca with Some ty => ty = txt_void \/ ktype ty = true | None => True end /\
      nz at_ /\ (forall rest ts, clexes rest ts -> clexes (at_ ++ rest) (atoks ats ++ ts)) /\
      match cl with
      | None => ks = [] /\ ca = None /\ leaf_text h v
      | Some b => b = 125 /\ v = DBlock false /\ nz h /\ forall rest ts, clexes rest ts -> clexes (h ++ rest) (casttoks ca ++ CtLBrace :: ts)
      end.
  Proof.
    intros A (n & d & En & Ed & Nm & K) I0. rewrite tree_at_eq in A. destruct A as (n' & En' & Z & P & Nx & X). rewrite En in En'. injection En' as <-.
    destruct ident_ref as (Ir & Irc & Iri).
    (* the attribute of a referenced node *)
    assert (exists ai ati, (if referenced n then attr_int wrapv buf txt_ref_idx (pub_idx n) else Some []) = Some ai /\ nz ai /\
      (forall rest ts, clexes rest ts -> clexes (ai ++ rest) (atoks ati ++ ts)) /\
      ati = if referenced n then [(txt_ref_idx, Z.of_nat (pub_idx n))] else []) as (ai & ati & Eai & Nai & Lai & Eati).
    { destruct (referenced n).
      - destruct (attr_text txt_ref_idx n Iri (Hpub _ _ I0 En)) as (at_ & E & N & L). exists at_, [(txt_ref_idx, Z.of_nat (pub_idx n))]. by split; [|split; [|split]].
      - exists [], []. split; [done|]. split; [constructor|]. by split. }
    assert (exists ar atr, (if is_ref n then m ← rd ns (first_child n); attr_int wrapv buf (if s_cref d then txt_ref_content else txt_ref) (pub_idx m) else Some []) = Some ar /\ nz ar /\
      (forall rest ts, clexes rest ts -> clexes (ar ++ rest) (atoks atr ++ ts)) /\
      (if is_ref n then exists m, ns !! first_child n = Some m /\ atr = [(if s_cref d then txt_ref_content else txt_ref, Z.of_nat (pub_idx m))] else atr = [])) as (ar & atr & Ear & Nar & Lar & Eatr).
    { destruct (is_ref n).
      - destruct (Hin _ K) as [m Em]. rewrite (rd_lu _ _ _ Em). cbn [mbind option_bind].
        destruct (attr_text (if s_cref d then txt_ref_content else txt_ref) m ltac:(by destruct (s_cref d)) (Hpub _ _ K Em)) as (at_ & E & N & L).
        exists at_, [(if s_cref d then txt_ref_content else txt_ref, Z.of_nat (pub_idx m))]. split; [done|]. split; [done|]. split; [done|]. by exists m.
      - exists [], []. split; [done|]. split; [constructor|]. by split. }
    set (ats := atr ++ ati).
    assert (forall ca v, (match ca with Some ty => if decide (ty = txt_void) then None else Some ty | None => None end) = node_type n d ->
      (if is_ref n || s_null d then v = DNull else leaf_read e (s_kind d) (c_val (vinfo v)) (c_null (vinfo v))) ->
      creads i (CPay (own_name d) ats ca v) /\ c_type (cbody wrapv e (CPay (own_name d) ats ca v)) = node_type n d) as Rd.
    { intros ca v Hca Hv. set (pay := CPay (own_name d) ats ca v).
      assert (cbody wrapv e pay = CInfo (c_val (vinfo v)) (c_null (vinfo v)) (is_ref n && s_cref d) None (node_type n d)) as Eb.
      { unfold cbody. cbn [d_cast d_val d_attrs pay]. unfold ats. rewrite foldr_app.
        assert (forall x : cinfo (F := F), foldr attr_info x ati = x) as Ei by (intros x; rewrite Eati; by destruct (referenced n)).
        rewrite Ei. assert (cast_info ca (vinfo v) = CInfo (c_val (vinfo v)) (c_null (vinfo v)) false None (node_type n d)) as ->.
        { rewrite <- Hca. unfold cast_info. destruct ca as [ty|]; [case_decide|]; by destruct v. }
        destruct (is_ref n).
        - destruct Eatr as (m & _ & ->). by destruct (s_cref d).
        - by rewrite Eatr. }
      split; [|by rewrite Eb]. exists n, d. split; [done|]. split; [done|]. intros k p nx fc.
      assert (cinf wrapv e pay = CInfo (c_val (vinfo v)) (c_null (vinfo v)) (is_ref n && s_cref d) (own_name d) (node_type n d)) as ->.
      { unfold cinf. rewrite Eb. cbn [d_name pay]. by destruct (own_name d). }
      assert (is_ref (cfin pay k (blank p nx fc)) = is_ref n /\ referenced (cfin pay k (blank p nx fc)) = referenced n /\
        pub_idx (cfin pay k (blank p nx fc)) = (if referenced n then pub_idx n else 0%nat) /\
        (is_ref n = true -> exists m, ns !! first_child n = Some m /\ first_child (cfin pay k (blank p nx fc)) = pub_idx m)) as (Q1 & Q2 & Q3 & Q4).
      { unfold cfin. cbn [d_attrs pay]. unfold ats. rewrite foldr_app, Eati. clear -Eatr.
        assert (forall x, foldr attr_node x [(txt_ref_idx, Z.of_nat (pub_idx n))] = set_idx (pub_idx n) x) as Ex.
        { intros x. cbn [foldr]. unfold attr_node. cbn [fst snd]. by rewrite Nat2Z.id. }
        destruct (is_ref n).
        - destruct Eatr as (m & Em & ->). assert (forall x, foldr attr_node x [(if s_cref d then txt_ref_content else txt_ref, Z.of_nat (pub_idx m))] = set_ref (pub_idx m) x) as ->.
          { intros x. cbn [foldr]. unfold attr_node. cbn [fst snd]. rewrite Nat2Z.id. by destruct (s_cref d). }
          destruct (referenced n); [rewrite Ex|]; cbn [foldr set_ref set_idx blank is_ref referenced pub_idx first_child];
            (split; [done|split; [done|split; [done|intros _; by exists m]]]).
        - subst atr. destruct (referenced n); [rewrite Ex|]; cbn [foldr set_ref set_idx blank is_ref referenced pub_idx first_child]; by (split; [|split; [|split]]). }
      cbn [c_name c_type c_cref c_val c_null]. split; [done|]. split; [done|]. split; [done|]. split; [done|]. split; [done|]. split; [done|].
      destruct (is_ref n).
      - destruct (Q4 eq_refl) as (m & Em & E). exists m. split; [done|]. split; [done|]. cbn in Hv. by subst v.
      - cbn in Hv. destruct (s_null d); [by subst v|done]. }
    assert (forall h cl ca v,
      (match ca with Some ty => if decide (ty = txt_void) then None else Some ty | None => None end) = node_type n d ->
      (if is_ref n || s_null d then v = DNull else leaf_read e (s_kind d) (c_val (vinfo v)) (c_null (vinfo v))) ->
      (match ca with Some ty => ty = txt_void \/ ktype ty = true | None => True end) ->
      (match cl with
       | None => ks = [] /\ ca = None /\ leaf_text h v
       | Some b => b = 125 /\ v = DBlock false /\ nz h /\ forall rest ts, clexes rest ts -> clexes (h ++ rest) (casttoks ca ++ CtLBrace :: ts)
       end) ->
      (forall (c : jctx) txt, (if s_null d || is_ref n then Some (txt ++ txt_NULL, (i, None) :: c.2)
         else h ← cinit_handler isprint wrapv buf (s_kind d); Some (txt ++ h.1, (i, h.2) :: c.2)) = Some (txt ++ h, (i, cl) :: c.2)) ->
      exists n d h cl at_ ats ca v, ns !! i = Some n /\ js !! i = Some d /\ next n = nxt /\ parent n = par /\
      (forall c lvl, cinit_pre isprint wrapv buf js ns c i lvl =
         Some (c.1 ++ spaces (indent lvl) ++ name_text d ++ at_ ++ h, (i, cl) :: c.2)) /\
      creads i (CPay (own_name d) ats ca v) /\
      (s_unnamed d = false -> usable (s_name d) /\ known (c_type (cbody wrapv e (CPay (own_name d) ats ca v))) (s_name d) = true /\ par <> 0%nat) /\
      match ca with Some ty => ty = txt_void \/ ktype ty = true | None => True end /\
      nz at_ /\ (forall rest ts, clexes rest ts -> clexes (at_ ++ rest) (atoks ats ++ ts)) /\
      match cl with
      | None => ks = [] /\ ca = None /\ leaf_text h v
      | Some b => b = 125 /\ v = DBlock false /\ nz h /\ forall rest ts, clexes rest ts -> clexes (h ++ rest) (casttoks ca ++ CtLBrace :: ts)
      end) as Fin.
    { intros h cl ca v H1 H2 H3 H4 H5. destruct (Rd ca v H1 H2) as [R1 R2]. exists n, d, h, cl, (ar ++ ai), ats, ca, v. do 4 (split; [done|]). split.
      { intros c lvl. unfold cinit_pre. rewrite (rd_lu _ _ _ En), (rd_lu _ _ _ Ed). cbn [mbind option_bind]. rewrite Ear. cbn [mbind option_bind]. rewrite Eai. cbn [mbind option_bind].
        rewrite H5. do 2 f_equal. unfold name_text. destruct (s_unnamed d); rewrite <- !app_assoc; [done|]. cbn [app]. by rewrite <- !app_assoc. }
      split; [done|]. split; [intros E; rewrite E in Nm; by rewrite R2, <- P|]. split; [done|]. split; [by apply nz_app|]. split; [|done].
      intros rest ts R. unfold ats, atoks. rewrite map_app, <- !app_assoc. by apply Lar, Lai. }
    unfold expandable in X. destruct (is_ref n) eqn:Er.
    - rewrite andb_false_r in X. subst ks. refine (Fin txt_NULL None None DNull _ _ _ _ _); [|done|done| |].
      + unfold node_type. by rewrite Er.
      + split; [done|]. split; [done|]. apply leaf_null.
      + intros c txt. by rewrite orb_true_r.
    - rewrite andb_true_r in X. destruct K as [Kk Kc]. destruct (s_null d) eqn:En0.
      + assert (ks = []) as ->.
        { destruct Kc as [Kc|[? _]]; [|done]. by rewrite Kc in X. }
        refine (Fin txt_NULL None None DNull _ _ _ _ _); [|done|done| |done].
        * unfold node_type. by rewrite Er, En0.
        * split; [done|]. split; [done|]. apply leaf_null.
      + assert (s_kind d = CStruct \/ (exists ty, s_kind d = CPtr ty) \/ (s_kind d <> CStruct /\ forall ty, s_kind d <> CPtr ty)) as [Ek|[[ty Ek]|[N1 N2]]].
        { destruct (s_kind d); try (right; right; by split); [by left|]. right. left. eauto. }
        * refine (Fin [123; 10] (Some 125) None (DBlock false) _ _ _ _ _); [|by rewrite Ek|done| |by rewrite Ek].
          -- unfold node_type. by rewrite Er, En0, Ek.
          -- split; [done|]. split; [done|]. split; [repeat constructor; discriminate|]. intros rest ts R. cbn [app casttoks]. apply clexes_punct; [mem|]. by apply clexes_space.
        * rewrite Ek in Kk. destruct Kk as [(ws & Nw & Fw & Ew) Kt].
          assert (exists b, ty = words ws ++ star b) as [b Eb].
          { unfold pointee in Ew. destruct (decide (last ty = Some 42)) as [L|]; [|exists false; by rewrite app_nil_r].
            exists true. rewrite <- Ew. destruct ty as [|c ty] using rev_ind; [done|]. rewrite last_snoc in L. injection L as ->. by rewrite removelast_last. }
          assert ((40 :: ty ++ [91; 93; 41; 123; 10]) = (40 :: words ws ++ star b ++ [91; 93; 41]) ++ [123; 10]) as Et by (rewrite Eb; cbn; by rewrite <- !app_assoc).
          refine (Fin (40 :: ty ++ [91; 93; 41; 123; 10]) (Some 125) (Some (words ws)) (DBlock false) _ _ _ _ _); [|by rewrite Ek| | |by rewrite Ek].
          -- unfold node_type. rewrite Er, En0, Ek. cbn [orb]. unfold cast_type. rewrite <- Ew. done.
          -- unfold cast_type in Kt. rewrite Ew in Kt. destruct (decide (words ws = [118; 111; 105; 100])) as [E|]; [by left|by right].
          -- split; [done|]. split; [done|]. split.
             ++ rewrite Et. apply nz_app. split; [|repeat constructor; discriminate]. constructor; [lia|]. apply nz_app. split.
                { eapply Forall_impl; [exact (words_chars ws Fw)|]. unfold ident_char, ident_start. cbn. intros; lia. }
                apply nz_app. split; [destruct b; repeat constructor; discriminate|repeat constructor; discriminate].
             ++ intros rest ts R. rewrite Et, <- app_assoc. cbn [casttoks app]. apply (clexes_cast ws b); [done|done|]. cbn [app]. apply clexes_punct; [mem|]. by apply clexes_space.
        * assert (ks = []) as ->.
          { destruct Kc as [Kc|[_ [?|[ty ?]]]]; [|done|by destruct (N2 ty)]. by rewrite Kc in X. }
          destruct (leaf_ok (s_kind d) Kk N1 N2) as (h & v & E & L & R).
          refine (Fin h None None v _ R _ _ _); [|done| |by rewrite E].
          -- unfold node_type. rewrite Er, En0. cbn [orb]. destruct (s_kind d) as [| | | | | | | | |ty]; done.
          -- by split.
  Qed.

  Definition ccomma (nxt : nat) : list (@ctok F) := match nxt with O => [] | _ => [CtComma] end.

  Lemma ctail_lex nxt rest ts : clexes rest ts ->
    cstop ((if Nat.eqb nxt 0 then [] else [44]) ++ [10] ++ rest) /\ clexes ((if Nat.eqb nxt 0 then [] else [44]) ++ [10] ++ rest) (ccomma nxt ++ ts).
  Proof.
    intros R. assert (clexes (10 :: rest) ts) as R1 by (by apply clexes_space).
    destruct nxt as [|nxt]; cbn [Nat.eqb app ccomma]; (split; [eexists _, _; split; [reflexivity|auto]|]); [done|]. apply clexes_punct; [mem|done].
  Qed.

  (** The text of a tree, whatever its level: what the visitor appends, and what the
      lexer makes of it. *)
  Definition ctree_text (t : tree) (nxt : nat) (toks : list (@ctok F)) (lvl : Z) : Prop :=
    exists txt R, nz txt /\ Forall (fun e : nat * option Z => e.1 ∈ nodes t) R /\
      (forall c k, apply_events print (events lvl t) ns c k = k ns (c.1 ++ txt, R ++ c.2)) /\
      (forall rest ts, clexes rest ts -> clexes (txt ++ rest) (toks ++ ccomma nxt ++ ts)).
  Definition ctrees_text (ks : list tree) (toks : list (@ctok F)) (lvl : Z) : Prop :=
    exists txt R, nz txt /\ Forall (fun e : nat * option Z => e.1 ∈ concat (map nodes ks)) R /\
      (forall c k, apply_events print (concat (map (events lvl) ks)) ns c k = k ns (c.1 ++ txt, R ++ c.2)) /\
      (forall rest ts, clexes rest ts -> clexes (txt ++ rest) (toks ++ ts)).

  Notation pays := (dinfos (fun a : cpay (F := F) => a)).
  Definition crenames (t : tree) (d : doc (cpay (F := F))) : Prop := forall f k, (forall j i, nodes t !! j = Some i -> f i = (k + j)%nat) -> rename f t = number_doc k d.

  Lemma cfin_links (a : cpay (F := F)) k p nx fc : is_ref (cfin a k (blank p nx fc)) = false -> first_child (cfin a k (blank p nx fc)) = fc.
  Proof.
    unfold cfin. induction (d_attrs a) as [|[nm v] l IH]; [done|]. cbn [foldr]. unfold attr_node at 1 3. repeat case_decide; [done|done|exact IH|exact IH].
  Qed.
  Lemma cfin_plain (a : cpay (F := F)) (ks : list (doc (cpay (F := F)))) : (ks <> [] -> forall k p nx fc, is_ref (cfin a k (blank p nx fc)) = false) -> plain_links cfin a ks.
  Proof.
    intros H k p nx. cbv zeta. split; [by rewrite fin_parent|]. split.
    { transitivity (next (set_next (cfin a k (blank p nx (match ks with [] => 0%nat | _ => S k end))) nx)); [|done]. by rewrite fin_next. }
    destruct ks as [|t ks].
    - unfold expandable. destruct (is_ref (cfin a k (blank p nx 0))) eqn:E; [apply andb_false_r|]. by rewrite (cfin_links a k p nx 0 E).
    - pose proof (H ltac:(done) k p nx (S k)) as E. by rewrite (cfin_links a k p nx (S k) E).
  Qed.

  Definition ctree_goal (t : tree) (par nxt : nat) : Prop :=
    exists d, good d /\ doc_all (plain_links cfin) d /\ cname_ok known wrapv e d /\ (par = 0%nat -> dname d = None) /\
      Forall2 creads (nodes t) (pays d) /\ crenames t d /\ dsize d = length (nodes t) /\
      forall lvl, ctree_text t nxt (etoks d) lvl.

  Lemma ckids_ok i ks : trees_at ns i ks -> (forall k nxt, k ∈ ks -> tree_at ns i nxt k -> ctree_goal k i nxt) ->
    exists ds, length ds = length ks /\ Forall good ds /\ Forall (doc_all (plain_links cfin)) ds /\ Forall (cname_ok known wrapv e) ds /\
      Forall2 creads (concat (map nodes ks)) (concat (map pays ds)) /\
      dsizes ds = length (concat (map nodes ks)) /\
      (forall f k, (forall j i, concat (map nodes ks) !! j = Some i -> f i = (k + j)%nat) -> map (rename f) ks = number_docs k ds) /\
      forall lvl, ctrees_text ks (ltoks (map etoks ds) false) lvl.
  Proof.
    intros A. induction ks as [|k ks IH]; intros H.
    - exists []. do 3 (split; [done|]). split; [done|]. split; [constructor|]. split; [done|]. split; [done|]. intros lvl. exists [], []. split; [constructor|]. split; [constructor|].
      split; [|done]. intros [c1 c2] kk. cbn. by rewrite app_nil_r.
    - cbn [trees_at] in A. destruct A as [A As]. destruct IH as (ds & Ln & G & Pl & N & R & Z & Fr & X); [done|intros; apply H; [by right|done]|].
      destruct (H k (hd_idx ks) ltac:(by left) A) as (d & G' & Pl' & N' & _ & R' & Fr' & Z' & X').
      exists (d :: ds). split; [cbn; lia|]. split; [by constructor|]. split; [by constructor|]. split; [by constructor|]. split; [cbn; by apply Forall2_app|].
      split; [cbn [map concat]; rewrite dsizes_cons, app_length; lia|]. split.
      + intros f kk Hf. cbn [map number_docs]. f_equal.
        * apply Fr'. intros j x E. apply Hf. cbn [map concat]. by apply lookup_app_l_Some.
        * apply Fr. intros j x E. rewrite Z'. rewrite (Hf (length (nodes k) + j)%nat x); [lia|]. cbn [map concat]. rewrite lookup_app_r by lia. by replace (_ + j - _)%nat with j by lia.
      + intros lvl. destruct (X lvl) as (txt & RR & T1 & T2 & T3 & T4), (X' lvl) as (txt' & RR' & T1' & T2' & T3' & T4').
        exists (txt' ++ txt), (RR ++ RR'). split; [by apply nz_app|]. split.
        { apply Forall_app. cbn [map concat]. split; (eapply Forall_impl; [eassumption|]); cbn; intros x Hx; apply elem_of_app; auto. }
        split.
        * intros c kk. cbn [map concat]. rewrite apply_events_app, T3', T3. cbn [fst snd]. by rewrite <- !app_assoc.
        * intros rest ts Hr. rewrite <- app_assoc. pose proof (T4 _ _ Hr) as L. apply T4' in L. cbn [map].
          destruct ks as [|k2 ks].
          -- destruct ds; [|done]. cbn [map ltoks] in *. rewrite app_nil_r. exact L.
          -- cbn [hd_idx] in *. destruct ds as [|d2 ds]; [done|]. rewrite ltoks_cons by done. cbn [trees_at] in As. destruct As as [As _]. apply tree_at_root in As as [Nz _].
             destruct (root k2); [done|]. cbn [ccomma app] in L. rewrite <- app_assoc. exact L.
  Qed.

  Lemma ctree_ok t : forall par nxt, tree_at ns par nxt t -> NoDup (nodes t) ->
    (forall i, i ∈ nodes t -> i ∈ nodes t0 /\ node_ok isprint known ktype wrapv e ns js t0 i) -> ctree_goal t par nxt.
  Proof.
    induction t as [i ks IH] using tree_ind'. intros par nxt A Nd Ok.
    destruct (Ok i ltac:(by left)) as [I0 Ok0].
    destruct (pre_ok i par nxt ks A Ok0 I0) as (n & d & h & cl & at_ & ats & ca & v & En & Ed & Nx & P & Pre & Rd & Nm & Hca & Nat_ & Lat & C).
    cbn [nodes] in Nd. apply NoDup_cons in Nd as [Ni Nd].
    rewrite tree_at_eq in A. destruct A as (n' & En' & Zi & _ & _ & X). rewrite En in En'. injection En' as <-.
    assert (trees_at ns i ks) as Tk by (destruct (expandable n); [apply X|by subst ks]).
    destruct (ckids_ok i ks Tk) as (ds & Ln & G & Pl & N & R & Z & Fr & XX).
    { intros k nx I Ak. rewrite Forall_forall in IH. apply (IH k I); [done| |].
      - clear -I Nd. induction ks as [|k0 ks IH]; [by apply elem_of_nil in I|]. cbn in Nd. apply NoDup_app in Nd as (N1 & _ & N2). apply elem_of_cons in I as [-> | I]; auto.
      - intros x Hx. apply Ok. cbn [nodes]. right. apply elem_of_list_In, in_concat. exists (nodes k). split; [apply in_map; by apply elem_of_list_In|by apply elem_of_list_In]. }
    set (pay := CPay (own_name d) ats ca v) in *.
    exists (Doc pay ds).
    assert (cgood known ktype wrapv e pay ds) as Gv.
    { destruct cl as [x|].
      - destruct C as (-> & -> & _ & _). split; [done|]. cbn. by split.
      - destruct C as (-> & -> & _ & [_ C] & _). destruct ds; [|done]. split; [done|]. exact C. }
    split; [apply doc_all_eq; by split|]. split.
    { apply doc_all_eq. split; [|done]. apply cfin_plain. intros Ne k p nx fc. destruct Rd as (n1 & d1 & En1 & _ & Rd). rewrite En in En1. injection En1 as <-.
      destruct (Rd k p nx fc) as (_ & _ & _ & -> & _). destruct (is_ref n) eqn:Er; [|done].
      unfold expandable in X. rewrite Er, andb_false_r in X. subst ks. by destruct ds. }
    split.
    { unfold cname_ok. cbn [dname d_name pay dtype]. unfold own_name. destruct (s_unnamed d); [by left|]. right. exists (s_name d). split; [done|]. by apply Nm. }
    split.
    { intros ->. cbn. unfold own_name. destruct (s_unnamed d); [done|]. by destruct Nm as (_ & _ & ?). }
    split.
    { cbn [nodes dinfos]. by constructor. }
    split.
    { intros f k Hf. rewrite number_doc_eq. cbn [rename]. f_equal; [rewrite (Hf 0%nat i eq_refl); lia|]. apply Fr. intros j x E. rewrite (Hf (S j) x); [lia|done]. }
    split.
    { cbn [nodes length]. rewrite <- Z. clear. cbn. done. }
    intros lvl. destruct (XX (lvl + 1)) as (txt & RR & T1 & T2 & T3 & T4).
    exists (spaces (indent lvl) ++ name_text d ++ at_ ++ h ++ txt ++ (match cl with Some x => spaces (indent lvl) ++ [x] | None => [] end) ++ (if Nat.eqb nxt 0 then [] else [44]) ++ [10]), (RR ++ [(i, cl)]).
    split; [|split; [|split]].
    - apply nz_app. split; [apply nz_spaces|]. apply nz_app. split.
      { unfold name_text. destruct (s_unnamed d); [constructor|]. destruct Nm as ((I & _) & _ & _); [done|]. constructor; [lia|]. apply nz_app. split; [|repeat constructor; discriminate].
        apply identifier_chars in I. eapply Forall_impl; [exact I|]. unfold ident_char, ident_start. cbn. intros; lia. }
      apply nz_app. split; [done|]. apply nz_app. split.
      { destruct cl; [apply C|]. by destruct C as (_ & _ & C & _). }
      apply nz_app. split; [done|]. apply nz_app. split.
      { destruct cl; [|constructor]. apply nz_app. split; [apply nz_spaces|]. destruct C as (-> & _). repeat constructor; discriminate. }
      destruct (Nat.eqb nxt 0); repeat constructor; discriminate.
    - apply Forall_app. split.
      + eapply Forall_impl; [exact T2|]. cbn. intros x Hx. by right.
      + constructor; [|constructor]. by left.
    - intros c k. cbn [events apply_events]. unfold visit at 1. unfold cinit_print_node at 1. rewrite Pre. cbn [mbind option_bind].
      rewrite apply_events_app, T3. cbn [apply_events fst snd]. unfold visit, cinit_print_node, json_post. rewrite (rd_lu _ _ _ En). cbn [mbind option_bind fst snd].
      rewrite get_res_app.
      2:{ eapply Forall_impl; [exact T2|]. cbn. intros x Hx Ex. apply Ni. by rewrite <- Ex. }
      cbn [get_res]. rewrite Nat.eqb_refl, Nx. f_equal. f_equal.
      + destruct cl, (Nat.eqb nxt 0); rewrite <- ?app_assoc; cbn [app]; rewrite ?app_nil_r, <- ?app_assoc; done.
      + by rewrite <- app_assoc.
    - intros rest ts Hr. rewrite <- !app_assoc. apply clexes_spaces.
      destruct (ctail_lex nxt rest ts Hr) as [St Lx].
      assert (clexes (at_ ++ h ++ txt ++ (match cl with Some x => spaces (indent lvl) ++ [x] | None => [] end) ++ (if Nat.eqb nxt 0 then [] else [44]) ++ [10] ++ rest)
        (dtoks (Doc pay ds) ++ ccomma nxt ++ ts)) as B.
      { rewrite dtoks_eq. cbn [d_attrs d_cast d_val pay]. rewrite <- !app_assoc. apply Lat. destruct cl as [x|].
        - destruct C as (-> & -> & _ & C). cbn [vtoks app]. apply C. rewrite <- !app_assoc. apply T4. cbn [app]. apply clexes_spaces. apply clexes_punct; [mem|done].
        - destruct C as (-> & -> & _ & _ & C). destruct ds; [|done]. cbn [app casttoks map].
          assert (txt = []) as ->.
          { specialize (T3 ([], []) (fun ns c => Done true ns c)). cbn in T3. by injection T3. }
          cbn [app]. by apply C. }
      unfold etoks, name_text. cbn [dname d_name pay]. unfold own_name. destruct (s_unnamed d); [exact B|]. cbn [nametoks app].
      destruct Nm as (U & _ & _); [done|]. rewrite <- app_assoc. apply clexes_punct; [mem|]. cbn [app]. apply clexes_id; [done|done|].
      apply clexes_space; [done|]. apply clexes_punct; [mem|]. apply clexes_space; [done|]. exact B.
  Qed.
End Save.
