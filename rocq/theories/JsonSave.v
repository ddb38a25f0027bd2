(** The text mr_json_save prints, read back. *)
From Verif Require Import Base Ptrs NumStr NumStrProof Enum EnumProof Quote QuoteProof Parse ParseProof Json JsonParse LexProof JsonLex JsonSpec DfsProof.
Local Open Scope Z_scope.

Ltac mem := repeat (first [apply elem_of_list_here | apply elem_of_list_further]).

Section Save.
  Context (known : list Z -> bool) (isprint : Z -> bool) (wrapv : bool) (buf : list Z) (ns : list node) (js : list jinfo).
  Context (Hbuf : length buf = print_buffer) (Hprint : isprint 0 = false).
  Notation print := (json_print_node isprint wrapv buf js).

  Definition nz (l : list Z) : Prop := Forall (fun c => c <> 0) l.
  Lemma nz_app a b : nz (a ++ b) <-> nz a /\ nz b. Proof. apply Forall_app. Qed.
  Lemma nz_spaces n : nz (spaces n). Proof. apply Forall_replicate. lia. Qed.

  Lemma print_int_ok t data : t <> NotInt -> wrapv = true \/ - 2 ^ 127 < read_as t data ->
    exists neg ds, print_number wrapv buf t data = Some (sgn neg ++ ds) /\ plain ds /\
      (if neg then - numeral_value 10 ds else numeral_value 10 ds) = read_as t data.
  Proof.
    intros Ht Hw. unfold print_number. 
    assert (8 <= width t <= 128) as Hwd by (destruct t; cbn; try lia; done).
    pose proof (Z.pow_pos_nonneg 2 (width t)) as P1. pose proof (Z.pow_pos_nonneg 2 (width t - 1)) as P2.
    assert (2 ^ width t = 2 * 2 ^ (width t - 1)) as P3 by (rewrite <- Z.pow_succ_r; [f_equal|]; lia).
    destruct (is_signed t) eqn:Hs.
    - assert (- 2 ^ 127 <= read_as t data < 2 ^ 127) as Hr.
      { unfold read_as. rewrite Hs. pose proof (Z.mod_pos_bound (data + 2 ^ (width t - 1)) (2 ^ width t) ltac:(lia)).
        assert (2 ^ (width t - 1) <= 2 ^ 127) by (apply Z.pow_le_mono_r; lia). lia. }
      destruct (print_int128_ok wrapv buf (read_as t data) Hbuf Hr Hw) as (ds & E & _ & T). rewrite E. cbn [mbind option_bind].
      apply decimal_plain in T as [Pl V]. exists (bool_decide (read_as t data < 0)), ds. split; [|split; [done|]].
      + f_equal. rewrite app_assoc, app_length. cbn [length]. replace (_ + 1 - 1)%nat with (length ((if decide (read_as t data < 0) then [45] else []) ++ ds)) by lia.
        rewrite take_app. unfold sgn. destruct (decide (read_as t data < 0)); [rewrite bool_decide_eq_true_2 by done|rewrite bool_decide_eq_false_2 by done]; done.
      + rewrite V. destruct (decide (read_as t data < 0)); [rewrite bool_decide_eq_true_2 by done|rewrite bool_decide_eq_false_2 by done]; lia.
    - assert (0 <= read_as t data < 2 ^ 128) as Hr.
      { unfold read_as. rewrite Hs. pose proof (Z.mod_pos_bound data (2 ^ width t) ltac:(lia)).
        assert (2 ^ width t <= 2 ^ 128) by (apply Z.pow_le_mono_r; lia). lia. }
      destruct (print_uint128_ok buf (read_as t data) Hbuf Hr) as (ds & E & _ & T). rewrite E. cbn [mbind option_bind].
      apply decimal_plain in T as [Pl V]. exists false, ds. split; [|by split].
      f_equal. rewrite app_length. cbn [length]. replace (_ + 1 - 1)%nat with (length ds) by lia. by rewrite take_app.
  Qed.

  Lemma dig_nz ds : Forall dig ds -> nz ds.
  Proof. intros F. eapply Forall_impl; [exact F|]. unfold dig. intros; lia. Qed.

  Lemma to_signed_ok v : 0 <= v < 2 ^ 128 -> - 2 ^ 127 <= to_signed v < 2 ^ 127 /\ to_signed v mod 2 ^ 128 = v.
  Proof.
    intros H. unfold to_signed. assert (2 ^ 128 = 2 * 2 ^ 127) as P by reflexivity. destruct (Z.ltb_spec v (2 ^ 127)).
    - split; [lia|]. apply Z.mod_small. lia.
    - split; [lia|]. symmetry. apply (Z.mod_unique _ _ (-1)); lia.
  Qed.

  (** Strings. *)
  Lemma string_value_ok s : Forall is_byte s -> exists v, string_value (concat (map (quote_char JSON isprint 34) s)) = Some v /\
    (v = LStr (c_string s) \/ v = LSub s /\ ~ existsb (Z.eqb 92) (concat (map (quote_char JSON isprint 34) s)) = true).
  Proof.
    intros Hs. unfold string_value. destruct (existsb (Z.eqb 92) (concat (map (quote_char JSON isprint 34) s))) eqn:E.
    - pose proof (unquote_ok JSON isprint s [] [] (S (length (concat (map (quote_char JSON isprint 34) s)))) Hs ltac:(done)) as U.
      cbn [app length] in U. cbv zeta in U. cbn [Nat.add] in U. rewrite U; [|pose proof (quoted_length JSON isprint s); lia].
      cbn [mbind option_bind]. eexists. split; [done|]. by left.
    - pose proof (no_backslash JSON isprint s E) as F. rewrite F. eexists. split; [done|]. by right.
  Qed.

  Lemma c_string_id s : nz s -> c_string s = s.
  Proof. induction 1 as [|c s Hc _ IH]; [done|]. cbn. rewrite (proj2 (Z.eqb_neq c 0)) by done. by rewrite IH. Qed.

  Lemma quoted_nz s : Forall is_byte s -> nz (quote_string JSON isprint s).
  Proof. intros H. eapply Forall_impl; [exact (quoted_chars JSON isprint s H)|]. cbn. intros x [P| ?] ->; [congruence|lia]. Qed.

  Lemma existsb_plain txt : Forall unquotable txt -> existsb (Z.eqb 92) txt = false.
  Proof.
    induction 1 as [|c l (_ & _ & N) _ IH]; [done|]. cbn [existsb]. rewrite IH, (proj2 (Z.eqb_neq 92 c)) by congruence. done.
  Qed.

  Lemma lex_unquotable txt rest : Forall unquotable txt -> lex_literal 34 (txt ++ 34 :: rest) = Some (txt, rest).
  Proof.
    intros H. rewrite lex_plain.
    - cbn. by rewrite app_nil_r.
    - eapply Forall_impl; [exact H|]. by intros x (_ & ? & ?).
  Qed.

  Lemma unquotable_nz txt : Forall unquotable txt -> nz txt.
  Proof. intros H. eapply Forall_impl; [exact H|]. intros x ([? ?] & _). lia. Qed.

  (** A leaf: its text is one value. *)
  Definition leaf_text (h : list Z) (v : jval) : Prop :=
    nz h /\ (forall nm, jgood known (JPay nm v) []) /\
    forall nm rest ts, stop rest -> jlexes rest ts -> jlexes (h ++ rest) (dtoks (Doc (JPay nm v) []) ++ ts).

  Lemma leaf_null : leaf_text txt_null VNull.
  Proof.
    split; [repeat constructor; lia|]. split; [done|]. intros nm rest ts _ R. apply lexes_word; [|done]. by left.
  Qed.
  Lemma leaf_int (neg : bool) ds z : plain ds -> z = (if neg then - numeral_value 10 ds else numeral_value 10 ds) ->
    leaf_text (sgn neg ++ ds) (VNum (LInt (to_signed (z mod 2 ^ 128)))).
  Proof.
    intros P ->. split; [apply nz_app; split; [destruct neg; repeat constructor; lia|apply dig_nz, P]|]. split; [done|].
    intros nm rest ts St R. by apply lexes_int.
  Qed.
  Lemma signed_mod z : - 2 ^ 127 <= to_signed (z mod 2 ^ 128) < 2 ^ 127 /\ to_signed (z mod 2 ^ 128) mod 2 ^ 128 = z mod 2 ^ 128.
  Proof. apply to_signed_ok. apply Z.mod_pos_bound. lia. Qed.

  Lemma numeral_no ds neg neg' ds' x : numeral ds' -> ~ digit x -> In x ds -> head ds <> Some 45 -> minus neg ++ ds <> minus neg' ++ ds'.
  Proof.
    intros (_ & F & _) Nx I Nh E. rewrite Forall_forall in F. 
    assert (x ∈ ds') as I'.
    { destruct neg, neg'; cbn [minus app] in E.
      - injection E as ->. by apply elem_of_list_In.
      - subst ds'. apply elem_of_cons. right. by apply elem_of_list_In.
      - subst ds. cbn in Nh. done.
      - subst ds'. by apply elem_of_list_In. }
    apply Nx, F, I'.
  Qed.

  Lemma leaf_float txt : float_text txt -> exists v, leaf_text txt (VNum v) /\ leaf_read (KFloat txt) v false.
  Proof.
    assert (forall neg w, w = [110; 97; 110] \/ w = [105; 110; 102] -> exists v, leaf_text (minus neg ++ w) (VNum v) /\ leaf_read (KFloat (minus neg ++ w)) v false) as Sp.
    { intros neg w Hw. exists (LFloat (minus neg ++ w)). split.
      - split; [|split; [done|]].
        + apply nz_app. split; [destruct neg; repeat constructor; lia|]. destruct Hw as [-> | ->]; repeat constructor; lia.
        + intros nm rest ts _ R. by apply (lexes_special neg w).
      - split; [done|]. right. split; [|done]. intros neg' ds' P'.
        apply (numeral_no w neg neg' ds' 110 P'); [unfold digit; lia| |]; destruct Hw as [-> | ->]; cbn; auto; done. }
    destruct 1 as [neg|neg|neg ds P|neg ds fs es P Hf He Ne].
    - apply Sp. by left.
    - apply Sp. by right.
    - eexists. split; [by refine (leaf_int neg ds _ P eq_refl)|]. split; [done|]. left. exists neg, ds. eexists. split; [done|]. split; [done|]. split; [done|]. apply signed_mod.
    - exists (LFloat (minus neg ++ ds ++ fs ++ es)). pose proof P as (N & F & _). split.
      + split; [|split; [done|]].
        * apply nz_app. split; [destruct neg; repeat constructor; lia|]. apply nz_app. split; [by apply dig_nz|]. apply nz_app. split.
          -- destruct Hf as [-> |(l & -> & Fl)]; [constructor|]. constructor; [lia|by apply dig_nz].
          -- destruct He as [-> |(s & l & -> & Hs & _ & Fl)]; [constructor|]. constructor; [lia|]. constructor; [lia|by apply dig_nz].
        * intros nm rest ts St R. apply (lexes_float neg ds fs es); [done..| |done|done|done].
          destruct He as [-> |(s & l & -> & Hs & Nl & Fl)]; [by left|]. right. exists [s], l. split; [done|]. split; [destruct Hs as [-> | ->]; auto|done].
      + split; [done|]. right. split; [|done]. intros neg' ds' P'.
        assert (head (ds ++ fs ++ es) <> Some 45) as Hh.
        { destruct ds as [|x ds]; [done|]. cbn. apply Forall_cons in F as [Hx _]. unfold digit in Hx. intros [= ->]. lia. }
        destruct Hf as [-> |(l & -> & Fl)].
        * destruct Ne as [?|Ne]; [done|]. destruct He as [-> |(s & l & -> & Hs & _ & Fl)]; [done|].
          apply (numeral_no _ neg neg' ds' 101 P'); [unfold digit; lia| |done]. apply in_app_iff. right. left. done.
        * apply (numeral_no _ neg neg' ds' 46 P'); [unfold digit; lia| |done]. apply in_app_iff. right. left. done.
  Qed.

  Lemma leaf_string s : Forall is_byte s -> exists v, leaf_text (34 :: concat (map (quote_char JSON isprint 34) s) ++ [34]) (VStr (concat (map (quote_char JSON isprint 34) s))) /\
    string_value (concat (map (quote_char JSON isprint 34) s)) = Some v /\ text_val v (c_string s).
  Proof.
    intros Hs. destruct (string_value_ok s Hs) as (v & E & V). exists v. split; [|split; [done|]].
    - split; [by apply quoted_nz|]. split; [intros nm; split; [done|by exists v]|]. intros nm rest ts _ R. cbn [app]. rewrite <- app_assoc. apply lexes_string; [|done]. by apply lex_string.
    - destruct V as [-> |[-> V]]; [by left|]. right. f_equal. symmetry. apply c_string_id.
      assert (concat (map (quote_char JSON isprint 34) s) = s) as <- by (apply (no_backslash JSON isprint); by apply not_true_is_false).
      pose proof (quoted_nz s Hs) as Q. unfold quote_string in Q. apply Forall_cons in Q as [_ Q]. by apply nz_app in Q as [Q _].
  Qed.

  Lemma leaf_ok k : kind_ok wrapv k -> k <> KStruct -> k <> KList -> exists h v,
    json_handler isprint wrapv buf k = Some (h, None) /\ leaf_text h v /\
    forall nm, leaf_read k (p_val (jinf (JPay nm v))) (p_null (jinf (JPay nm v))).
  Proof.
    intros K N1 N2. destruct k as [|c|b|t data|txt|c|s|txt| |]; try done.
    - destruct c.
      + exists txt_null, VNull. split; [done|]. split; [apply leaf_null|done].
      + exists [123; 125], VObj. split; [done|]. split; [|done]. split; [repeat constructor; lia|]. split; [intros; constructor|].
        intros nm rest ts _ R. cbn [app dtoks a_val map sep]. apply lexes_punct; [mem|]. apply lexes_punct; [mem|done].
      + exists [48], (VNum (LInt 0)). split; [done|]. split; [|done]. change 0 with (to_signed (0 mod 2 ^ 128)). apply (leaf_int false [48]); [|done].
        split; [done|]. split; [|done]. repeat constructor; cbn; lia.
    - exists (if b then txt_true else txt_false), (VNum (LInt (if b then 1 else 0))). split; [done|]. split; [|done].
      split; [destruct b; repeat constructor; lia|]. split; [done|]. intros nm rest ts _ R. destruct b; apply lexes_word; try done; mem.
    - destruct K as [Kt Kw]. destruct (print_int_ok t data Kt Kw) as (neg & ds & E & P & V). exists (sgn neg ++ ds), (VNum (LInt (to_signed (read_as t data mod 2 ^ 128)))).
      cbn [json_handler]. rewrite E. split; [done|]. split; [by apply leaf_int|]. intros nm. cbn [p_null jinf a_val p_val]. split; [done|]. eexists. split; [done|]. apply signed_mod.
    - destruct (leaf_float txt K) as (v & L & R). exists txt, (VNum v). by split; [|split].
    - cbn in K. destruct (leaf_string [c]) as (v & L & E & V); [constructor; [done|constructor]|]. cbn [map concat] in L, E. rewrite app_nil_r in L, E.
      exists (34 :: quote_char JSON isprint 34 c ++ [34]), (VStr (quote_char JSON isprint 34 c)). split; [done|]. split; [done|].
      intros nm. cbn [jinf a_val p_val p_null]. rewrite E. done.
    - assert (Forall is_byte s) as Hs by (eapply Forall_impl; [exact K|]; unfold is_byte; cbn; intros; lia).
      destruct (leaf_string s Hs) as (v & L & E & V). rewrite c_string_id in V by (eapply Forall_impl; [exact K|]; cbn; intros; lia).
      eexists _, _. split; [done|]. split; [exact L|]. intros nm. cbn [jinf a_val p_val p_null]. rewrite E. done.
    - cbn in K. exists (34 :: txt ++ [34]), (VStr txt). pose proof (existsb_plain txt K) as Eb. split; [done|]. split.
      + split; [constructor; [lia|]; apply nz_app; split; [by apply unquotable_nz|repeat constructor; lia]|]. split.
        * intros nm. split; [done|]. unfold string_value. rewrite Eb. eauto.
        * intros nm rest ts _ R. cbn [app]. rewrite <- app_assoc. apply lexes_string; [|done]. by apply lex_unquotable.
      + intros nm. cbn [jinf a_val p_val p_null]. unfold string_value. rewrite Eb. split; [done|]. by right.
  Qed.

  (** ** Trees *)
  Context (t0 : tree) (Hpub : forall i m, i ∈ nodes t0 -> ns !! i = Some m -> Z.of_nat (pub_idx m) < 2 ^ 32).
  Context (Hin : forall i, i ∈ nodes t0 -> exists m, ns !! i = Some m).

  Definition ktoks (b : bool) (d : jdoc) : list token := if b then mtoks d else dtoks d.
  Definition name_text (b : bool) (d : jinfo) : list Z := if b then 34 :: j_name d ++ [34; 58; 32] else [].
  Definition own_name (b : bool) (d : jinfo) : option (list Z) := if b then Some (j_name d) else None.

  Lemma pub_number m : Z.of_nat (pub_idx m) < 2 ^ 32 -> exists ds, print_number wrapv buf U32 (Z.of_nat (pub_idx m)) = Some ds /\ plain ds /\
    numeral_value 10 ds = Z.of_nat (pub_idx m).
  Proof.
    intros L. assert (read_as U32 (Z.of_nat (pub_idx m)) = Z.of_nat (pub_idx m)) as E by (apply Z.mod_small; cbn [width]; lia).
    destruct (print_int_ok U32 (Z.of_nat (pub_idx m)) ltac:(done)) as (neg & ds & P & Pl & V); [right; rewrite E; lia|].
    rewrite E in V. exists ds. destruct neg; [|by split].
    exfalso. unfold print_number in P. cbn [is_signed] in P. 
    destruct (print_uint128 buf (read_as U32 (Z.of_nat (pub_idx m)))) as [out|] eqn:Eo; [|done]. cbn [mbind option_bind] in P.
    destruct (print_uint128_ok buf (read_as U32 (Z.of_nat (pub_idx m))) Hbuf) as (ds' & Eo' & _ & T'); [rewrite E; lia|].
    rewrite Eo in Eo'. injection Eo' as ->. rewrite app_length in P. cbn [length] in P. replace (_ + 1 - 1)%nat with (length ds') in P by lia.
    rewrite take_app in P. injection P as ->. apply decimal_plain in T' as [(_ & F & _) _]. apply Forall_cons in F as [F _]. unfold dig in F. cbn in F. lia.
  Qed.

  (** The opening part of a node. *)
  Lemma pre_ok i par nxt ks : tree_at ns par nxt (T i ks) -> node_ok known wrapv ns js t0 i -> par = 0%nat \/ (exists pd, js !! par = Some pd) ->
    exists n d h cl v, ns !! i = Some n /\ js !! i = Some d /\ next n = nxt /\ parent n = par /\
      (forall c lvl, json_pre isprint wrapv buf js ns c i lvl =
         Some (c.1 ++ spaces (indent lvl) ++ name_text (in_struct js n) d ++ h, (i, cl) :: c.2)) /\
      (forall nm, nm = own_name (in_struct js n) d -> node_read ns js n d (jinf (JPay nm v))) /\
      (in_struct js n = true -> Forall unquotable (j_name d) /\ known (j_name d) = true) /\
      match cl with
      | None => ks = [] /\ leaf_text h v
      | Some b => (b = 125 /\ v = VObj /\ h = [123; 10] /\ j_kind d = KStruct) \/ (b = 93 /\ v = VArr /\ h = [91; 10] /\ j_kind d = KList)
      end.
  Proof.
    intros A (n & d & En & Ed & Nm & K) Hpar. rewrite tree_at_eq in A. destruct A as (n' & En' & Z & P & Nx & X). rewrite En in En'. injection En' as <-.
    assert (forall h cl v, 
      (match cl with None => ks = [] /\ leaf_text h v
        | Some b => (b = 125 /\ v = VObj /\ h = [123; 10] /\ j_kind d = KStruct) \/ (b = 93 /\ v = VArr /\ h = [91; 10] /\ j_kind d = KList) end) ->
      (forall nm, nm = own_name (in_struct js n) d -> node_read ns js n d (jinf (JPay nm v))) ->
      (forall c txt, (if is_ref n then
      m ← rd ns (first_child n);
      num ← print_number wrapv buf U32 (Z.of_nat (pub_idx m));
      Some (txt ++ (if j_cref d then [45] else []) ++ num, (i, None) :: c.2)
    else if j_null d then Some (txt ++ txt_null, (i, None) :: c.2)
    else h ← json_handler isprint wrapv buf (j_kind d); Some (txt ++ h.1, (i, h.2) :: c.2)) = Some (txt ++ h, (i, cl) :: (c : jctx).2)) ->
      exists n d h cl v, ns !! i = Some n /\ js !! i = Some d /\ next n = nxt /\ parent n = par /\
      (forall c lvl, json_pre isprint wrapv buf js ns c i lvl =
         Some (c.1 ++ spaces (indent lvl) ++ name_text (in_struct js n) d ++ h, (i, cl) :: c.2)) /\
      (forall nm, nm = own_name (in_struct js n) d -> node_read ns js n d (jinf (JPay nm v))) /\
      (in_struct js n = true -> Forall unquotable (j_name d) /\ known (j_name d) = true) /\
      match cl with
      | None => ks = [] /\ leaf_text h v
      | Some b => (b = 125 /\ v = VObj /\ h = [123; 10] /\ j_kind d = KStruct) \/ (b = 93 /\ v = VArr /\ h = [91; 10] /\ j_kind d = KList)
      end) as Done.
    { intros h cl v H1 H2 H3. exists n, d, h, cl, v. do 4 (split; [done|]). split; [|split; [done|split; [|done]]].
      - intros c lvl. unfold json_pre. rewrite (rd_lu _ _ _ En), (rd_lu _ _ _ Ed). cbn [mbind option_bind].
        assert ((if j_unnamed d && negb (Nat.eqb (parent n) 0) then pd ← rd js (parent n); Some (negb (struct_kind (j_kind pd))) else Some (j_unnamed d)) =
          Some (negb (in_struct js n))) as ->.
        { clear H1 H2 H3. unfold in_struct in *. rewrite P in *. destruct par as [|p].
          - cbn [Nat.eqb negb]. by rewrite Nm.
          - destruct Hpar as [?|[pd Epd]]; [done|]. rewrite (rd_lu _ _ _ Epd). rewrite Epd in *. cbn [mbind option_bind Nat.eqb negb].
            rewrite andb_true_r. destruct (j_kind pd); cbn [struct_kind negb]; by rewrite ?Nm; destruct (j_unnamed d). }
        cbn [mbind option_bind]. rewrite H3. do 2 f_equal. destruct (in_struct js n); cbn [negb name_text app]; rewrite <- ?app_assoc; [|done]. cbn [app]. rewrite <- ?app_assoc. done.
      - intros E. by rewrite E in Nm. }
    clear Hpar. unfold expandable in X. destruct (is_ref n) eqn:Er.
    - rewrite andb_false_r in X. subst ks. destruct (Hin _ K) as [m Em].
      destruct (pub_number m (Hpub _ _ K Em)) as (ds & Pr & Pl & V).
      assert (to_signed ((if j_cref d then - numeral_value 10 ds else numeral_value 10 ds) mod 2 ^ 128) = if j_cref d then - Z.of_nat (pub_idx m) else Z.of_nat (pub_idx m)) as Ev.
      { rewrite V. pose proof (Hpub _ _ K Em) as L. assert (0 <= Z.of_nat (pub_idx m)) as G by lia. revert L G. clear. generalize (Z.of_nat (pub_idx m)). intros z L G.
        unfold to_signed. destruct (j_cref d).
        - destruct (decide (z = 0)) as [->|]; [reflexivity|].
          rewrite <- (Z.mod_unique (- z) (2 ^ 128) (-1) (2 ^ 128 - z)) by lia. destruct (Z.ltb_spec (2 ^ 128 - z) (2 ^ 127)); lia.
        - rewrite Z.mod_small by lia. destruct (Z.ltb_spec z (2 ^ 127)); lia. }
      refine (Done (sgn (j_cref d) ++ ds) None (VNum (LInt (to_signed ((if j_cref d then - numeral_value 10 ds else numeral_value 10 ds) mod 2 ^ 128)))) _ _ _).
      + split; [done|]. by apply leaf_int.
      + intros nm ->. split; [done|]. rewrite Er. exists m. split; [done|]. split; [done|]. cbn [p_val jinf a_val]. by rewrite Ev.
      + intros c txt. rewrite (rd_lu _ _ _ Em). cbn [mbind option_bind]. rewrite Pr. cbn [mbind option_bind]. done.
    - rewrite andb_true_r in X. destruct K as [Kk Kc]. destruct (j_null d) eqn:En0.
      + assert (ks = []) as ->.
        { destruct Kc as [Kc|[? _]]; [|done]. by rewrite Kc in X. }
        refine (Done txt_null None VNull _ _ _); [split; [done|apply leaf_null]| |done].
        intros nm ->. split; [done|]. by rewrite Er, En0.
      + assert (j_kind d = KStruct \/ j_kind d = KList \/ (j_kind d <> KStruct /\ j_kind d <> KList)) as [Ek|[Ek|[N1 N2]]] by (destruct (j_kind d); auto).
        * refine (Done [123; 10] (Some 125) VObj _ _ _); [by left| |by rewrite Ek].
          intros nm ->. split; [done|]. by rewrite Er, En0, Ek.
        * refine (Done [91; 10] (Some 93) VArr _ _ _); [by right| |by rewrite Ek].
          intros nm ->. split; [done|]. by rewrite Er, En0, Ek.
        * assert (ks = []) as ->.
          { destruct Kc as [Kc|[_ [?|?]]]; [|done..]. by rewrite Kc in X. }
          destruct (leaf_ok (j_kind d) Kk N1 N2) as (h & v & E & L & R).
          refine (Done h None v _ _ _); [by split| |by rewrite E].
          intros nm ->. split; [by destruct v|]. rewrite Er, En0. apply R.
  Qed.

  Definition reads (i : nat) (p : pinfo) : Prop := exists n d, ns !! i = Some n /\ js !! i = Some d /\ node_read ns js n d p.
  Definition comma (nxt : nat) : list token := match nxt with O => [] | _ => [TComma] end.

  Lemma tail_lex nxt rest ts : jlexes rest ts ->
    stop ((if Nat.eqb nxt 0 then [] else [44]) ++ [10] ++ rest) /\ jlexes ((if Nat.eqb nxt 0 then [] else [44]) ++ [10] ++ rest) (comma nxt ++ ts).
  Proof.
    intros R. assert (jlexes (10 :: rest) ts) as R1 by (apply lexes_space; [apply select_space|done|done]).
    destruct nxt as [|nxt]; cbn [Nat.eqb app comma]; (split; [eexists; by auto|]); [done|]. apply lexes_punct; [mem|done].
  Qed.

  Lemma get_res_app R l i : Forall (fun e : nat * option Z => e.1 <> i) R -> get_res (R ++ l) i = get_res l i.
  Proof.
    induction 1 as [|[j r] R Hj _ IH]; [done|]. cbn [app get_res]. cbn in Hj. by rewrite (proj2 (Nat.eqb_neq i j)) by congruence.
  Qed.

  (** The text of a tree, whatever its level: what the visitor appends, and what the
      lexer makes of it. *)
  Definition tree_text (t : tree) (nxt : nat) (toks : list token) (lvl : Z) : Prop :=
    exists txt R, nz txt /\ Forall (fun e : nat * option Z => e.1 ∈ nodes t) R /\
      (forall c k, apply_events print (events lvl t) ns c k = k ns (c.1 ++ txt, R ++ c.2)) /\
      (forall rest ts, jlexes rest ts -> jlexes (txt ++ rest) (toks ++ comma nxt ++ ts)).
  Definition trees_text (ks : list tree) (toks : list token) (lvl : Z) : Prop :=
    exists txt R, nz txt /\ Forall (fun e : nat * option Z => e.1 ∈ concat (map nodes ks)) R /\
      (forall c k, apply_events print (concat (map (events lvl) ks)) ns c k = k ns (c.1 ++ txt, R ++ c.2)) /\
      (forall rest ts, jlexes rest ts -> jlexes (txt ++ rest) (toks ++ ts)).

  Definition renames (t : tree) (d : jdoc) : Prop := forall f k, (forall j i, nodes t !! j = Some i -> f i = (k + j)%nat) -> rename f t = number_doc k d.

  Definition tree_goal (t : tree) (par nxt : nat) : Prop :=
    exists (b : bool) d, (match ns !! root t with Some n => in_struct js n = b | None => False end) /\
      doc_all (jgood known) d /\ match dname d with Some nm => b = true /\ known nm = true | None => b = false end /\
      Forall2 reads (nodes t) (dinfos jinf d) /\ renames t d /\ dsize d = length (nodes t) /\
      forall lvl, tree_text t nxt (ktoks b d) lvl.

  Lemma kids_ok b i ks : trees_at ns i ks -> i <> 0%nat -> 
    b = match js !! i with Some pd => match j_kind pd with KStruct => true | _ => false end | None => false end ->
    (forall k nxt, k ∈ ks -> tree_at ns i nxt k -> tree_goal k i nxt) ->
    exists ds, length ds = length ks /\ Forall (doc_all (jgood known)) ds /\ Forall (fun d => match dname d with Some nm => b = true /\ known nm = true | None => b = false end) ds /\
      Forall2 reads (concat (map nodes ks)) (concat (map (dinfos jinf) ds)) /\
      dsizes ds = length (concat (map nodes ks)) /\
      (forall f k, (forall j i, concat (map nodes ks) !! j = Some i -> f i = (k + j)%nat) -> map (rename f) ks = number_docs k ds) /\
      forall lvl, trees_text ks (sep (map (ktoks b) ds)) lvl.
  Proof.
    intros A Zi Eb. induction ks as [|k ks IH]; intros H.
    - exists []. do 2 (split; [done|]). split; [done|]. split; [constructor|]. split; [done|]. split; [done|]. intros lvl. exists [], []. split; [constructor|]. split; [constructor|].
      split; [|done]. intros [c1 c2] kk. cbn. by rewrite app_nil_r.
    - cbn [trees_at] in A. destruct A as [A As]. destruct IH as (ds & Ln & G & N & R & Z & F & X); [done|intros; apply H; [by right|done]|].
      destruct (H k (hd_idx ks) ltac:(by left) A) as (b' & d & Eb' & G' & N' & R' & F' & Z' & X').
      assert (b' = b) as ->.
      { destruct (tree_at_root _ _ _ _ A) as (_ & n & En & P & _). rewrite En in Eb'. rewrite <- Eb', Eb. unfold in_struct. rewrite P. by destruct i. }
      exists (d :: ds). split; [cbn; lia|]. split; [by constructor|]. split; [by constructor|]. split; [cbn; by apply Forall2_app|].
      split; [cbn [map concat]; rewrite dsizes_cons, app_length; lia|]. split.
      + intros f kk Hf. cbn [map number_docs]. f_equal.
        * apply F'. intros j x E. apply Hf. cbn [map concat]. by apply lookup_app_l_Some.
        * apply F. intros j x E. rewrite Z'. rewrite (Hf (length (nodes k) + j)%nat x); [lia|]. cbn [map concat]. rewrite lookup_app_r by lia. by replace (_ + j - _)%nat with j by lia.
      + intros lvl. destruct (X lvl) as (txt & RR & T1 & T2 & T3 & T4), (X' lvl) as (txt' & RR' & T1' & T2' & T3' & T4').
        exists (txt' ++ txt), (RR ++ RR'). split; [by apply nz_app|]. split.
        { apply Forall_app. cbn [map concat]. split; (eapply Forall_impl; [eassumption|]); cbn; intros x Hx; apply elem_of_app; auto. }
        split.
        * intros c kk. cbn [map concat]. rewrite apply_events_app, T3', T3. cbn [fst snd]. by rewrite <- !app_assoc.
        * intros rest ts Hr. rewrite <- app_assoc. pose proof (T4 _ _ Hr) as L. apply T4' in L. cbn [map].
          destruct ks as [|k2 ks].
          -- destruct ds; [|done]. done.
          -- cbn [hd_idx] in *. destruct ds as [|d2 ds]; [done|]. cbn [map sep]. cbn [trees_at] in As. destruct As as [As _]. apply tree_at_root in As as [Nz _].
             destruct (root k2); [done|]. cbn [comma app] in L. rewrite <- app_assoc. exact L.
  Qed.

  Lemma tree_ok t : forall par nxt, tree_at ns par nxt t -> par = 0%nat \/ (exists pd, js !! par = Some pd) -> NoDup (nodes t) ->
    (forall i, i ∈ nodes t -> node_ok known wrapv ns js t0 i) -> tree_goal t par nxt.
  Proof.
    induction t as [i ks IH] using tree_ind'. intros par nxt A Hp Nd Ok.
    destruct (pre_ok i par nxt ks A (Ok i ltac:(by left)) Hp) as (n & d & h & cl & v & En & Ed & Nx & P & Pre & Rd & Nm & C).
    cbn [nodes] in Nd. apply NoDup_cons in Nd as [Ni Nd].
    rewrite tree_at_eq in A. destruct A as (n' & En' & Zi & _ & _ & X). rewrite En in En'. injection En' as <-.
    set (bk := match j_kind d with KStruct => true | _ => false end).
    assert (trees_at ns i ks) as Tk by (destruct (expandable n); [apply X|by subst ks]).
    destruct (kids_ok bk i ks Tk Zi) as (ds & Ln & G & N & R & Z & F & XX).
    { by rewrite Ed. }
    { intros k nx I Ak. rewrite Forall_forall in IH. apply (IH k I); [done|right; by exists d| |].
      - clear -I Nd. induction ks as [|k0 ks IH]; [by apply elem_of_nil in I|]. cbn in Nd. apply NoDup_app in Nd as (N1 & _ & N2). apply elem_of_cons in I as [-> | I]; auto.
      - intros x Hx. apply Ok. cbn [nodes]. right. apply elem_of_list_In, in_concat. exists (nodes k). split; [apply in_map; by apply elem_of_list_In|by apply elem_of_list_In]. }
    set (b := in_struct js n) in *.
    exists b, (Doc (JPay (own_name b d) v) ds).
    assert (jgood known (JPay (own_name b d) v) ds) as Gv.
    { destruct cl as [x|].
      - destruct C as [(-> & -> & -> & Ek)|(-> & -> & -> & Ek)]; subst bk; rewrite Ek in N; cbn.
        + eapply Forall_impl; [exact N|]. cbn. intros y Hy. destruct (dname y); [|done]. destruct Hy. eauto.
        + eapply Forall_impl; [exact N|]. cbn. intros y Hy. destruct (dname y); [|done]. by destruct Hy.
      - destruct C as [-> (_ & C & _)]. destruct ds; [|done]. apply C. }
    split; [cbn [root]; by rewrite En|]. split; [apply doc_all_eq; by split|]. split.
    { cbn [dname a_name]. unfold own_name. destruct b; [|done]. split; [done|]. by apply Nm. }
    split.
    { cbn [nodes dinfos]. constructor; [|done]. exists n, d. split; [done|]. split; [done|]. by apply Rd. }
    split.
    { intros f k Hf. rewrite number_doc_eq. cbn [rename]. f_equal; [rewrite (Hf 0%nat i eq_refl); lia|]. apply F. intros j x E. rewrite (Hf (S j) x); [lia|done]. }
    split.
    { cbn [nodes length]. rewrite <- Z. clear. cbn. done. }
    intros lvl. destruct (XX (lvl + 1)) as (txt & RR & T1 & T2 & T3 & T4).
    exists (spaces (indent lvl) ++ name_text b d ++ h ++ txt ++ (match cl with Some x => spaces (indent lvl) ++ [x] | None => [] end) ++ (if Nat.eqb nxt 0 then [] else [44]) ++ [10]), (RR ++ [(i, cl)]).
    split; [|split; [|split]].
    - apply nz_app. split; [apply nz_spaces|]. apply nz_app. split.
      { unfold name_text. destruct b; [|constructor]. constructor; [lia|]. apply nz_app. split; [by apply unquotable_nz, Nm|repeat constructor; discriminate]. }
      apply nz_app. split.
      { destruct cl; [destruct C as [(-> & -> & -> & Ek)|(-> & -> & -> & Ek)]; repeat constructor; discriminate|apply C]. }
      apply nz_app. split; [done|]. apply nz_app. split.
      { destruct cl; [|constructor]. apply nz_app. split; [apply nz_spaces|]. destruct C as [(-> & _)|(-> & _)]; repeat constructor; discriminate. }
      destruct (Nat.eqb nxt 0); repeat constructor; discriminate.
    - apply Forall_app. split.
      + eapply Forall_impl; [exact T2|]. cbn. intros e He. by right.
      + constructor; [|constructor]. by left.
    - intros c k. cbn [events apply_events]. unfold visit at 1. unfold json_print_node at 1. rewrite Pre. cbn [mbind option_bind].
      rewrite apply_events_app, T3. cbn [apply_events fst snd]. unfold visit, json_print_node, json_post. rewrite (rd_lu _ _ _ En). cbn [mbind option_bind fst snd].
      rewrite get_res_app.
      2:{ eapply Forall_impl; [exact T2|]. cbn. intros e He Ee. apply Ni. by rewrite <- Ee. }
      cbn [get_res]. rewrite Nat.eqb_refl, Nx. f_equal. f_equal.
      + destruct cl, (Nat.eqb nxt 0); rewrite <- ?app_assoc; cbn [app]; rewrite ?app_nil_r, <- ?app_assoc; done.
      + by rewrite <- app_assoc.
    - intros rest ts Hr. rewrite <- !app_assoc. apply lexes_spaces; [apply select_space|].
      destruct (tail_lex nxt rest ts Hr) as [St Lx].
      assert (jlexes (h ++ txt ++ (match cl with Some x => spaces (indent lvl) ++ [x] | None => [] end) ++ (if Nat.eqb nxt 0 then [] else [44]) ++ [10] ++ rest)
        (dtoks (Doc (JPay (own_name b d) v) ds) ++ comma nxt ++ ts)) as B.
      { destruct cl as [x|].
        - assert (forall o c, jlexes (spaces (indent lvl) ++ [x] ++ (if Nat.eqb nxt 0 then [] else [44]) ++ [10] ++ rest) (c :: comma nxt ++ ts) ->
            (forall rest ts, jlexes rest ts -> jlexes (h ++ rest) (o :: ts)) ->
            jlexes (h ++ txt ++ (spaces (indent lvl) ++ [x]) ++ (if Nat.eqb nxt 0 then [] else [44]) ++ [10] ++ rest) (o :: (sep (map (ktoks bk) ds) ++ [c]) ++ comma nxt ++ ts)) as Q.
          { intros o c Hc Ho. apply Ho. rewrite <- !app_assoc. apply T4. exact Hc. }
          rewrite dtoks_eq. cbn [a_val].
          destruct C as [(-> & -> & -> & Ek)|(-> & -> & -> & Ek)]; subst bk; rewrite Ek in Q; apply Q.
          + apply lexes_spaces; [apply select_space|]. apply lexes_punct; [mem|done].
          + intros rest' ts' R'. cbn [app]. apply lexes_punct; [mem|]. apply lexes_space; [apply select_space|done|done].
          + apply lexes_spaces; [apply select_space|]. apply lexes_punct; [mem|done].
          + intros rest' ts' R'. cbn [app]. apply lexes_punct; [mem|]. apply lexes_space; [apply select_space|done|done].
        - destruct C as [-> (_ & _ & C)]. destruct ds; [|done]. cbn [app]. 
          assert (txt = []) as ->.
          { specialize (T3 ([], []) (fun ns c => Done true ns c)). cbn in T3. by injection T3. }
          cbn [app]. by apply C. }
      unfold name_text, ktoks. destruct b; [|exact B]. unfold mtoks. cbn [own_name dname a_name default id].
      cbn [app]. rewrite <- !app_assoc. cbn [app]. apply lexes_string; [apply lex_unquotable; by apply Nm|].
      apply lexes_punct; [mem|]. apply lexes_space; [apply select_space|done|exact B].
  Qed.
End Save.
