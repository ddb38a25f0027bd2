(** The text mr_scm_save prints, read back. *)
From Verif Require Import Base Ptrs NumStr NumStrProof Enum EnumProof Quote QuoteProof Parse ParseProof Json LexProof JsonLex JsonSpec JsonSave Value ValueProof Cinit CinitParse CinitSpec CinitLex CinitSave Scm ScmParse ScmSpec ScmLex DfsProof.
Local Open Scope Z_scope.

(** ** The text while it is printed: perhaps a newline is pending *)
Definition pend (p : bool) : list Z := if p then [10] else [].
Definition tailed (l : list Z) : Prop := exists c, last l = Some c /\ c <> 10.
Definition ready (base : list Z) (p : bool) : Prop := p = true \/ tailed base.
Definition sep (p mark : bool) (lvl : Z) (gap : list Z) : list Z := if p || mark then 10 :: spaces (indent lvl) else gap.

Lemma tailed_app a b : tailed b -> tailed (a ++ b).
Proof. intros (c & E & N). exists c. split; [|done]. destruct b as [|x b] using rev_ind; [done|]. rewrite last_snoc in E. by rewrite app_assoc, last_snoc. Qed.
Lemma tailed_snoc a c : c <> 10 -> tailed (a ++ [c]).
Proof. intros N. exists c. by rewrite last_snoc. Qed.
Lemma tailed_all l : l <> [] -> Forall (fun c => c <> 10) l -> tailed l.
Proof. intros N A. destruct l as [|x l] using rev_ind; [done|]. apply Forall_app in A as [_ A]. apply Forall_cons in A as [A _]. by apply tailed_snoc. Qed.

Lemma drop_nl_ok base p : ready base p -> drop_nl (base ++ pend p) = Some base.
Proof.
  intros R. unfold drop_nl. destruct p; cbn [pend].
  - rewrite last_snoc. cbn. by rewrite removelast_last.
  - rewrite app_nil_r. destruct R as [?|(c & E & N)]; [done|]. rewrite E. cbn. by rewrite (proj2 (Z.eqb_neq c 10)).
Qed.
Lemma new_line_ok lvl base p : ready base p -> new_line lvl (base ++ pend p) = Some (base ++ 10 :: spaces (indent lvl)).
Proof. intros R. unfold new_line. by rewrite drop_nl_ok. Qed.
Lemma last_pend base p : ready base p -> exists c, last (base ++ pend p) = Some c /\ (c =? 10) = p.
Proof.
  intros R. destruct p; cbn [pend].
  - exists 10. by rewrite last_snoc.
  - rewrite app_nil_r. destruct R as [?|(c & E & N)]; [done|]. exists c. split; [done|]. by apply Z.eqb_neq.
Qed.
Lemma new_line_if_ok lvl base p : ready base p -> new_line_if lvl (base ++ pend p) = Some (base ++ (if p then 10 :: spaces (indent lvl) else [])).
Proof.
  intros R. unfold new_line_if. destruct (last_pend base p R) as (c & -> & E). cbn [mbind option_bind]. rewrite E. destruct p; [by apply new_line_ok|done].
Qed.
Lemma new_line_if_tailed lvl txt : tailed txt -> new_line_if lvl txt = Some txt.
Proof. intros T. pose proof (new_line_if_ok lvl txt false (or_intror T)) as E. cbn in E. by rewrite !app_nil_r in E. Qed.
Lemma new_line_if_again lvl base : new_line_if lvl (base ++ 10 :: spaces (indent lvl)) = Some (base ++ 10 :: spaces (indent lvl)).
Proof.
  destruct (indent lvl) as [|k] eqn:E.
  - change (10 :: spaces 0) with (pend true). rewrite new_line_if_ok by (by left). by rewrite E.
  - apply new_line_if_tailed. unfold spaces. replace (S k) with (k + 1)%nat by lia. rewrite replicate_add. cbn [replicate].
    change (10 :: replicate k 32 ++ [32]) with ((10 :: replicate k 32) ++ [32]). rewrite app_assoc. by apply tailed_snoc.
Qed.

(** Attributes before their node. *)
Definition rows (lvl : Z) (las : list (list Z)) : list Z := concat (map (fun a => a ++ 10 :: spaces (indent lvl)) las).
Definition fallen (lvl : Z) (las : list (list Z)) : list Z := concat (map (fun a => 10 :: spaces (indent lvl) ++ a) las).
Lemma roll lvl las X : fallen lvl las ++ 10 :: spaces (indent lvl) ++ X = 10 :: spaces (indent lvl) ++ rows lvl las ++ X.
Proof.
  unfold fallen, rows. induction las as [|a las IH]; [done|]. cbn [map concat]. rewrite <- !app_assoc, IH. cbn [app]. by rewrite <- !app_assoc.
Qed.

Lemma begins_app a b : a <> [] -> begins a -> begins (a ++ b).
Proof. by destruct a. Qed.
Lemma begins_blank w rest : blanks w -> w <> [] -> sstop (w ++ rest).
Proof. intros B N. destruct w as [|c w]; [done|]. apply Forall_cons in B as [[-> | ->] _]; cbn; auto. Qed.
Lemma sstop_close w rest : blanks w -> sstop (w ++ 41 :: rest).
Proof. intros B. destruct w as [|c w]; [cbn; auto|]. by apply begins_blank. Qed.
Lemma blanks_line lvl : blanks (10 :: spaces (indent lvl)).
Proof. constructor; [by right|apply blanks_spaces]. Qed.
Lemma blanks_nz w : blanks w -> nz w.
Proof. intros B. eapply Forall_impl; [exact B|]. cbn. intros; lia. Qed.

Lemma ssgn_nz neg ds : nz ds -> nz (sgn neg ++ ds).
Proof. intros H. apply nz_app. split; [destruct neg; repeat constructor; lia|done]. Qed.
Lemma ssigned_same z : same_int (Json.to_signed (z mod 2 ^ 128)) z.
Proof.
  pose proof (Z.mod_pos_bound z (2 ^ 128) ltac:(lia)) as B. assert (2 ^ 128 = 2 * 2 ^ 127) as P by reflexivity. unfold same_int, Json.to_signed.
  destruct (Z.ltb_spec (z mod 2 ^ 128) (2 ^ 127)).
  - split; [lia|]. apply Z.mod_mod. lia.
  - split; [lia|]. replace (z mod 2 ^ 128 - 2 ^ 128) with (z mod 2 ^ 128 + (-1) * 2 ^ 128) by lia. rewrite Z_mod_plus_full. apply Z.mod_mod. lia.
Qed.

Lemma sident_ref : identifier txt_ref /\ identifier txt_ref_content /\ identifier txt_ref_idx.
Proof.
  split; [|split]; (eexists _, _; split; [reflexivity|]; split; [unfold ident_start; lia|]); repeat (constructor; [unfold ident_char, ident_start; lia|]); constructor.
Qed.

Section Save.
  Context {F : Type} `{FL : Floats F}.
  Context (isprint : Z -> bool) (known : list Z -> bool) (wrapv : bool).
  Context (buf : list Z) (ns : list node) (js : list minfo).
  Context (Hbuf : length buf = print_buffer) (Hprint : isprint 0 = false) (Hnl : isprint 10 = false).
  Notation print := (scm_print_node isprint wrapv buf js).
  Notation mlexes := (lexes (scm_rules (F := F))).
  Notation good := (doc_all (mgood (F := F) known)).
  Notation vinfo := (mval_info (F := F)).

  (** A leaf: its text is one value. *)
  Definition mleaf_text (h : list Z) (v : mval (F := F)) : Prop :=
    nz h /\ h <> [] /\ begins h /\ tailed h /\ mvgood v [] /\
    forall rest ts, sstop rest -> mlexes rest ts -> mlexes (h ++ rest) (mvtoks v [] ++ ts).

  Lemma mleaf_nil : mleaf_text txt_nil SFalse.
  Proof.
    split; [repeat constructor; lia|]. split; [done|]. split; [done|]. split; [by exists 108|]. split; [done|]. intros rest ts St R. apply mlexes_word; [mem|done|done].
  Qed.

  Lemma numeric_text neg w : w <> [] -> Forall (fun c => 32 < c < 127 /\ c <> 41 /\ c <> 46) (take 1 w) -> Forall (fun c => c <> 10 /\ c <> 0) w ->
    nz (sgn neg ++ w) /\ sgn neg ++ w <> [] /\ begins (sgn neg ++ w) /\ tailed (sgn neg ++ w).
  Proof.
    intros N H A. split; [apply ssgn_nz; eapply Forall_impl; [exact A|]; cbn; intros; lia|]. split; [by destruct neg, w|]. split.
    - destruct neg; [done|]. destruct w as [|c w]; [done|]. cbn [take] in H. apply Forall_cons in H as [H _]. cbn. split; [unfold isspace; lia|lia].
    - apply tailed_app. apply tailed_all; [done|]. eapply Forall_impl; [exact A|]. cbn. intros; lia.
  Qed.
  Lemma dig_text ds : Forall dig ds -> Forall (fun c => 32 < c < 127 /\ c <> 41 /\ c <> 46) (take 1 ds) /\ Forall (fun c => c <> 10 /\ c <> 0) ds.
  Proof.
    intros A. split; [apply Forall_take|]; (eapply Forall_impl; [exact A|]); unfold dig; cbn; intros; lia.
  Qed.

  Lemma mleaf_int neg ds : plain ds -> exists z, mleaf_text (sgn neg ++ ds) (SNum (VInt z)) /\ same_int z (if neg then - numeral_value 10 ds else numeral_value 10 ds).
  Proof.
    intros P. eexists. split; [|apply ssigned_same]. pose proof P as (N & Fd & _). destruct (dig_text ds Fd) as [D1 D2]. destruct (numeric_text neg ds N D1 D2) as (T1 & T2 & T3 & T4).
    split; [done|]. split; [done|]. split; [done|]. split; [done|]. split; [by split|]. intros rest ts St R. cbn [mvtoks app]. by apply mlexes_int.
  Qed.

  Lemma mleaf_float txt : float_text txt -> exists v, mleaf_text txt v /\ mleaf_read false (MFloat txt) (c_val (vinfo v)) (c_null (vinfo v)).
  Proof.
    assert (forall neg w, w = [110; 97; 110] \/ w = [105; 110; 102] -> exists v, mleaf_text (minus neg ++ w) v /\ mleaf_read false (MFloat (minus neg ++ w)) (c_val (vinfo v)) (c_null (vinfo v))) as Sp.
    { intros neg w Hw. set (f := VFloat (strtold ((minus neg ++ w) ++ [0])).1). exists (SNum f). split.
      - destruct (numeric_text neg w) as (T1 & T2 & T3 & T4); [by destruct Hw as [-> | ->]|destruct Hw as [-> | ->]; repeat constructor; lia|destruct Hw as [-> | ->]; repeat constructor; lia|].
        split; [done|]. split; [done|]. split; [done|]. split; [done|]. split; [by split|]. intros rest ts St R. cbn [mvtoks app]. by apply (mlexes_special neg w).
      - split; [done|]. right. split; [|done]. intros neg' ds' P'.
        apply (numeral_no w neg neg' ds' 110 P'); [unfold digit; lia| |]; destruct Hw as [-> | ->]; cbn; auto; done. }
    destruct 1 as [neg|neg|neg ds P|neg ds fs es P Hf He Ne].
    - apply Sp. by left.
    - apply Sp. by right.
    - destruct (mleaf_int neg ds P) as (z & L & S). exists (SNum (VInt z)). split; [exact L|]. split; [done|]. left. by exists neg, ds, z.
    - pose proof P as (N & Fd & _). set (w := ds ++ fs ++ es).
      assert (expo es) as Hx.
      { destruct He as [-> |(s & l & -> & Hs & Nl & Fl)]; [by left|]. right. exists [s], l. split; [done|]. split; [destruct Hs as [-> | ->]; auto|done]. }
      exists (SNum (VFloat (strtold ((minus neg ++ w) ++ [0])).1)). split.
      + destruct (numeric_text neg w) as (T1 & T2 & T3 & T4).
        * unfold w. by destruct ds.
        * unfold w. destruct ds as [|c ds]; [done|]. apply Forall_cons in Fd as [Hc _]. cbn [app take]. unfold digit in Hc. repeat constructor; lia.
        * apply Forall_app. split; [by apply dig_text|]. apply Forall_app. split.
          -- destruct Hf as [-> |(l & -> & Fl)]; [constructor|]. constructor; [lia|by apply dig_text].
          -- destruct He as [-> |(s & l & -> & Hs & _ & Fl)]; [constructor|]. constructor; [lia|]. constructor; [lia|by apply dig_text].
        * split; [done|]. split; [done|]. split; [done|]. split; [done|]. split; [by split|]. intros rest ts St R. cbn [mvtoks app]. by apply (mlexes_float neg ds fs es).
      + split; [done|]. right. split; [|done]. intros neg' ds' P'.
        assert (head w <> Some 45) as Hh.
        { unfold w. destruct ds as [|c ds]; [done|]. apply Forall_cons in Fd as [Hc _]. cbn. unfold digit in Hc. intros [= ->]. lia. }
        destruct Hf as [-> |(l & -> & Fl)].
        * destruct Ne as [?|Ne]; [done|]. destruct He as [-> |(s & l & -> & Hs & _ & Fl)]; [done|].
          apply (numeral_no w neg neg' ds' 101 P'); [unfold digit; lia| |done]. unfold w. apply in_or_app. right. cbn. auto.
        * apply (numeral_no w neg neg' ds' 46 P'); [unfold digit; lia| |done]. unfold w. apply in_or_app. right. cbn. auto.
  Qed.

  Lemma quoted_text c : nz c -> nz (34 :: c ++ [34]) /\ 34 :: c ++ [34] <> [] /\ begins (34 :: c ++ [34]) /\ tailed (34 :: c ++ [34]).
  Proof.
    intros N. split; [constructor; [lia|]; apply nz_app; split; [done|repeat constructor; lia]|]. split; [done|]. split; [done|].
    change (34 :: c ++ [34]) with ((34 :: c) ++ [34]). by apply tailed_snoc.
  Qed.

  Lemma mleaf_string s : Forall (fun c => 0 < c < 256) s ->
    exists v, mleaf_text (quote_string SCM isprint s) v /\ c_null (vinfo v) = false /\
      (c_val (vinfo v) = VString (s ++ [0]) \/ c_val (vinfo v) = VSubstr (s ++ [34; 0]) (length s)).
  Proof.
    intros Hs. assert (Forall is_byte s) as Hb by (eapply Forall_impl; [exact Hs|]; unfold is_byte; cbn; intros; lia).
    set (body := concat (map (quote_char SCM isprint 34) s)).
    assert (exists v, scm_string (F := F) body = Some v /\ (v = VString (s ++ [0]) \/ v = VSubstr (s ++ [34; 0]) (length s))) as (v & Ev & Hv).
    { unfold scm_string. destruct (existsb (Z.eqb 92) body) eqn:E.
      - pose proof (unquote_ok SCM isprint s [] [] (S (length body)) Hb ltac:(done)) as U. fold body in U.
        cbn [app length] in U. cbv zeta in U. cbn [Nat.add] in U. rewrite U; [|pose proof (quoted_length SCM isprint s); subst body; lia].
        cbn [mbind option_bind]. eexists. split; [done|]. left. do 2 f_equal. apply c_string_id. eapply Forall_impl; [exact Hs|]. cbn. intros; lia.
      - pose proof (no_backslash SCM isprint s E) as E'. fold body in E'. rewrite E'. eexists. split; [done|]. by right. }
    exists (SStr body). split; [|cbn; rewrite Ev; by split].
    change (quote_string SCM isprint s) with (34 :: body ++ [34]).
    destruct (quoted_text body) as (T1 & T2 & T3 & T4).
    { assert (Forall (fun c => c <> 0) (quote_string SCM isprint s)) as Q.
      { eapply Forall_impl; [exact (quoted_chars SCM isprint s Hb)|]. cbn. intros x [P| ?] ->; [congruence|lia]. }
      change (quote_string SCM isprint s) with (34 :: body ++ [34]) in Q. apply Forall_cons in Q as [_ Q]. by apply Forall_app in Q as [Q _]. }
    split; [done|]. split; [done|]. split; [done|]. split; [done|]. split; [split; [done|by exists v]|].
    intros rest ts _ R. cbn [mvtoks]. apply mlexes_string; [by apply lex_string|done].
  Qed.

  Lemma mleaf_quoted txt : Forall unquotable txt ->
    mleaf_text (34 :: txt ++ [34]) (SStr txt) /\ vinfo (SStr txt) = cset_val (VSubstr (txt ++ [34; 0]) (length txt)) cinfo0.
  Proof.
    intros U. pose proof (existsb_plain txt U) as E. assert (scm_string (F := F) txt = Some (VSubstr (txt ++ [34; 0]) (length txt))) as Ev by (unfold scm_string; by rewrite E).
    split; [|cbn; by rewrite Ev]. destruct (quoted_text txt (unquotable_nz (fun _ => true) isprint buf Hbuf Hprint txt U)) as (T1 & T2 & T3 & T4).
    split; [done|]. split; [done|]. split; [done|]. split; [done|]. split; [split; [done|eauto]|].
    intros rest ts _ R. cbn [mvtoks]. apply mlexes_string; [by apply lex_unquotable|done].
  Qed.

  Lemma mleaf_char c : 0 <= c < 256 -> mleaf_text (scm_print_char isprint c) (SChar (VChar c)).
  Proof.
    intros Hc. unfold mleaf_text. assert (nz (scm_print_char isprint c) /\ scm_print_char isprint c <> [] /\ begins (scm_print_char isprint c) /\ tailed (scm_print_char isprint c)) as (T1 & T2 & T3 & T4).
    { unfold scm_print_char. destruct (isprint c) eqn:E.
      - assert (c <> 0 /\ c <> 10) as [? ?] by (split; congruence). split; [repeat constructor; lia|]. split; [done|]. split; [done|]. by exists c.
      - assert (0 <= c / 16 < 16) by (split; [apply Z.div_pos; lia|apply Z.div_lt_upper_bound; lia]).
        assert (0 <= c mod 16 < 16) by (apply Z.mod_pos_bound; lia).
        assert (forall x, 0 <= x < 16 -> hex_char x <> 0 /\ hex_char x <> 10) as Hx by (intros x Hx; unfold hex_char; destruct (Z.ltb_spec x 10); lia).
        pose proof (Hx (c / 16) ltac:(lia)). pose proof (Hx (c mod 16) ltac:(lia)).
        split; [repeat constructor; lia|]. split; [done|]. split; [done|]. exists (hex_char (c mod 16)). split; [done|lia]. }
    split; [done|]. split; [done|]. split; [done|]. split; [done|]. split; [by split|]. intros rest ts St R. cbn [mvtoks app]. by apply mlexes_char.
  Qed.

  Lemma mleaf_hex addr : 0 <= addr < 2 ^ 64 -> mleaf_text ([35; 120] ++ hex_digits 16 addr) (SNum (VInt addr)).
  Proof.
    intros H. destruct (hex_digits_ok 16 addr ltac:(lia) ltac:(change (16 ^ Z.of_nat 16) with (2 ^ 64); lia)) as (N & _ & Fx & _).
    assert (Forall (fun c => c <> 10 /\ c <> 0) (hex_digits 16 addr)) as A.
    { eapply Forall_impl; [exact Fx|]. cbn. intros x Hx. split; intros ->; done. }
    split; [constructor; [lia|]; constructor; [lia|]; eapply Forall_impl; [exact A|]; cbn; tauto|]. split; [done|]. split; [done|].
    split; [apply tailed_app, tailed_all; [done|]; eapply Forall_impl; [exact A|]; cbn; tauto|]. split; [by split|].
    intros rest ts St R. cbn [mvtoks]. by apply mlexes_hex.
  Qed.

  Lemma mleaf_ok n d : is_ref n = false -> mkind_ok wrapv (m_kind d) -> first_child n = 0%nat -> (m_kind d = MPtr -> m_null d = true) ->
    exists h v, scm_handler isprint wrapv buf n d = Some h /\ mleaf_text h v /\ mleaf_read (m_null d || is_ref n) (m_kind d) (c_val (vinfo v)) (c_null (vinfo v)).
  Proof.
    intros Er K Fc Kp. unfold scm_handler. rewrite Er, orb_false_r. destruct (m_kind d) as [|b|t data|txt|c|s|s|txt|nm addr| |].
    - done.
    - destruct b.
      + exists txt_t, (SNum (VInt 1)). split; [done|]. split; [|done]. split; [repeat constructor; lia|]. split; [done|]. split; [done|]. split; [by exists 116|]. split; [done|].
        intros rest ts St R. apply mlexes_word; [mem|done|done].
      + exists txt_nil, SFalse. split; [done|]. split; [apply mleaf_nil|done].
    - destruct K as [Kt Kw]. destruct (print_int_ok (fun _ => true) isprint wrapv buf Hbuf Hprint t data Kt Kw) as (neg & ds & E & P & V).
      destruct (mleaf_int neg ds P) as (z & L & Sz). exists (sgn neg ++ ds), (SNum (VInt z)). split; [done|]. split; [done|]. split; [done|]. exists z. rewrite V in Sz. by split.
    - destruct (mleaf_float txt K) as (v & L & R). exists txt, v. by split.
    - exists (scm_print_char isprint c), (SChar (VChar c)). split; [done|]. split; [by apply mleaf_char|done].
    - destruct (mleaf_string s K) as (v & L & R). exists (quote_string SCM isprint s), v. by split.
    - destruct (m_null d).
      + exists txt_nil, SFalse. split; [done|]. split; [apply mleaf_nil|done].
      + destruct (mleaf_string s K) as (v & L & R). exists (quote_string SCM isprint s), v. by split.
    - destruct (mleaf_quoted txt K) as [L E]. exists (34 :: txt ++ [34]), (SStr txt). split; [done|]. split; [done|]. by rewrite E.
    - destruct (m_null d).
      + exists txt_nil, SFalse. split; [done|]. split; [apply mleaf_nil|done].
      + destruct nm as [nm|].
        * destruct (mleaf_quoted nm K) as [L E]. exists (34 :: nm ++ [34]), (SStr nm). split; [done|]. split; [done|]. by rewrite E.
        * exists ([35; 120] ++ hex_digits 16 addr), (SNum (VInt addr)). split; [done|]. split; [by apply mleaf_hex|done].
    - rewrite Fc. exists [40; 41], (SList []). split; [done|]. split; [|done]. split; [repeat constructor; lia|]. split; [done|]. split; [done|]. split; [by exists 41|]. split; [done|].
      intros rest ts _ R. cbn [mvtoks app litoks]. apply (mlexes_lp []); [constructor|done|]. apply (mlexes_rp []); [constructor|done].
    - rewrite (Kp eq_refl). exists txt_nil, SFalse. split; [done|]. split; [apply mleaf_nil|done].
  Qed.

  (** ** Trees *)
  Context (t0 : tree) (Hpub : forall i m, i ∈ nodes t0 -> ns !! i = Some m -> Z.of_nat (pub_idx m) < 2 ^ 32).
  Context (Hin : forall i, i ∈ nodes t0 -> exists m, ns !! i = Some m).

  Definition mname_text (d : minfo) : list Z := if m_unnamed d then [] else 40 :: m_name d ++ [32; 46; 32].
  Definition mnames (d : minfo) : list (list Z) := if m_unnamed d then [] else [m_name d].
  Definition marked (n : node) (d : minfo) : bool := negb (m_unnamed d) || is_ref n || referenced n.
  Definition gap (par r : nat) : list Z :=
    if Nat.eqb par 0 then [] else match ns !! par with Some p => if Nat.eqb (first_child p) r then [] else [32] | None => [] end.

  Lemma mattr_text nm m : identifier nm -> Z.of_nat (pub_idx m) < 2 ^ 32 -> exists a,
    scm_attr wrapv buf nm (pub_idx m) = Some (a ++ [10]) /\ nz a /\ a <> [] /\ begins a /\
    forall lvl rest ts, nospace rest -> mlexes rest ts -> mlexes (a ++ (10 :: spaces (indent lvl)) ++ rest) (MtAttr nm (Z.of_nat (pub_idx m)) :: ts).
  Proof.
    intros I L. destruct (pub_number (fun _ => true) isprint wrapv buf ns Hbuf Hprint t0 Hpub m L) as (ds & E & P & V).
    exists (sattr_txt nm ds). unfold scm_attr. rewrite E. cbn [mbind option_bind]. split; [unfold sattr_txt; by rewrite <- !app_assoc|]. split; [|split; [done|split; [done|]]].
    - unfold sattr_txt. apply nz_app. split; [repeat constructor; discriminate|]. apply nz_app. split.
      { apply identifier_chars in I. eapply Forall_impl; [exact I|]. unfold ident_char, ident_start. cbn. intros; lia. }
      apply nz_app. split; [repeat constructor; discriminate|]. apply nz_app. split; [apply dig_nz, P|repeat constructor; discriminate].
    - intros lvl rest ts Hr R. rewrite <- V. apply mlexes_attr; [done|done|lia|apply blanks_line|done|done|done].
  Qed.

  (** What a printed node has to be read as, wherever it is. *)
  Definition mreads (i : nat) (a : mpay (F := F)) : Prop := exists n d, ns !! i = Some n /\ js !! i = Some d /\
    forall k p nx fc, mnode_read ns n d (mfin a k (blank p nx fc)) (minf a).

  Definition rows_ok (las : list (list Z)) (ats : list (list Z * Z)) : Prop :=
    Forall (fun a => nz a /\ a <> [] /\ begins a) las /\
    forall lvl rest ts, nospace rest -> mlexes rest ts -> mlexes (rows lvl las ++ rest) (matoks ats ++ ts).

  Lemma rows_begins lvl las X : Forall (fun a => nz a /\ a <> [] /\ begins a) las -> begins X -> begins (rows lvl las ++ X).
  Proof. intros A H. destruct A as [|a las (_ & N & B) _]; [done|]. unfold rows. cbn [map concat]. rewrite <- !app_assoc. by apply begins_app. Qed.
  Lemma rows_nz lvl las : Forall (fun a => nz a /\ a <> [] /\ begins a) las -> nz (rows lvl las).
  Proof.
    intros A. unfold rows. induction A as [|a las (N & _) _ IH]; [constructor|]. cbn [map concat]. apply nz_app. split; [|done]. apply nz_app. split; [done|]. apply blanks_nz, blanks_line.
  Qed.

  (** The opening part of a node. *)
  Lemma mpre_ok i par nxt ks : tree_at ns par nxt (T i ks) -> mnode_ok known wrapv ns js t0 i -> i ∈ nodes t0 -> par = 0%nat \/ is_Some (ns !! par) ->
    exists n d las ats h, ns !! i = Some n /\ js !! i = Some d /\ rows_ok las ats /\
      (forall base p lvl, ready base p -> scm_pre isprint wrapv buf js ns (base ++ pend p) i lvl =
         Some (base ++ sep p (marked n d) lvl (gap par i) ++ rows lvl las ++ mname_text d ++ (if bracketed n then [40] else []) ++ h)) /\
      (m_unnamed d = false -> musable (m_name d) /\ known (m_name d) = true) /\
      (if bracketed n then h = [] /\ is_ref n = false /\ ks <> [] /\ first_child n = hd_idx ks /\ trees_at ns i ks /\ forall ws, mreads i (MPay (mnames d) ats (SList ws))
       else ks = [] /\ exists v, mleaf_text h v /\ mreads i (MPay (mnames d) ats v)).
  Proof.
    intros A (n & d & En & Ed & Nm & K) I0 Hpar. rewrite tree_at_eq in A. destruct A as (n' & En' & Hz & P & Nx & X). rewrite En in En'. injection En' as <-.
    destruct sident_ref as (Ir & Irc & Iri).
    assert (exists las ats, rows_ok las ats /\ (is_ref n = true \/ referenced n = true <-> las <> []) /\
      (if is_ref n then exists m, ns !! first_child n = Some m /\ ats = (if m_cref d then txt_ref_content else txt_ref, Z.of_nat (pub_idx m)) :: (if referenced n then [(txt_ref_idx, Z.of_nat (pub_idx n))] else [])
       else ats = if referenced n then [(txt_ref_idx, Z.of_nat (pub_idx n))] else []) /\
      forall base p lvl (k : list Z -> option (list Z)), ready base p ->
        ready (base ++ fallen lvl las) (p || match las with [] => false | _ => true end) /\
        (txt ← (if is_ref n then txt ← new_line lvl (base ++ pend p); m ← rd ns (first_child n);
                  a ← scm_attr wrapv buf (if m_cref d then txt_ref_content else txt_ref) (pub_idx m); Some (txt ++ a)
                else Some (base ++ pend p));
         txt ← (if referenced n then txt ← new_line lvl txt; a ← scm_attr wrapv buf txt_ref_idx (pub_idx n); Some (txt ++ a) else Some txt); k txt) =
        k ((base ++ fallen lvl las) ++ pend (p || match las with [] => false | _ => true end))) as (las & ats & Ro & Mk & Ea & Ep).
    { assert (exists las ats, rows_ok las ats /\ (is_ref n = true <-> las <> []) /\
        (if is_ref n then exists m, ns !! first_child n = Some m /\ ats = [(if m_cref d then txt_ref_content else txt_ref, Z.of_nat (pub_idx m))] else ats = []) /\
        forall base p lvl, ready base p ->
          ready (base ++ fallen lvl las) (p || match las with [] => false | _ => true end) /\
          (if is_ref n then txt ← new_line lvl (base ++ pend p); m ← rd ns (first_child n);
                  a ← scm_attr wrapv buf (if m_cref d then txt_ref_content else txt_ref) (pub_idx m); Some (txt ++ a)
           else Some (base ++ pend p)) = Some ((base ++ fallen lvl las) ++ pend (p || match las with [] => false | _ => true end))) as (la1 & at1 & R1 & M1 & E1 & P1).
      { destruct (is_ref n).
        - destruct K as [Kf _]. destruct (Hin _ Kf) as [m Em].
          destruct (mattr_text (if m_cref d then txt_ref_content else txt_ref) m ltac:(by destruct (m_cref d)) (Hpub _ _ Kf Em)) as (a & E & N & Na & B & L).
          exists [a], [(if m_cref d then txt_ref_content else txt_ref, Z.of_nat (pub_idx m))]. split.
          { split; [by repeat constructor|]. intros lvl rest ts Hr R. unfold rows. cbn [map concat matoks fst snd]. rewrite app_nil_r, <- app_assoc. by apply L. }
          split; [done|]. split; [by exists m|]. intros base p lvl Rd. rewrite orb_true_r. split; [by left|]. rewrite new_line_ok by done. cbn [mbind option_bind].
          rewrite (rd_lu _ _ _ Em). cbn [mbind option_bind]. rewrite E. cbn [mbind option_bind]. unfold fallen. cbn [map concat pend]. rewrite app_nil_r. rewrite <- !app_assoc. cbn [app]. by rewrite <- !app_assoc.
        - exists [], []. split; [split; [constructor|by intros]|]. split; [done|]. split; [done|]. intros base p lvl Rd. unfold fallen. cbn [map concat]. rewrite app_nil_r, orb_false_r. by split. }
      assert (exists las ats, rows_ok las ats /\ (referenced n = true <-> las <> []) /\ ats = (if referenced n then [(txt_ref_idx, Z.of_nat (pub_idx n))] else []) /\
        forall base p lvl, ready base p ->
          ready (base ++ fallen lvl las) (p || match las with [] => false | _ => true end) /\
          (if referenced n then txt ← new_line lvl (base ++ pend p); a ← scm_attr wrapv buf txt_ref_idx (pub_idx n); Some (txt ++ a) else Some (base ++ pend p))
           = Some ((base ++ fallen lvl las) ++ pend (p || match las with [] => false | _ => true end))) as (la2 & at2 & R2 & M2 & E2 & P2).
      { destruct (referenced n).
        - destruct (mattr_text txt_ref_idx n Iri (Hpub _ _ I0 En)) as (a & E & N & Na & B & L).
          exists [a], [(txt_ref_idx, Z.of_nat (pub_idx n))]. split.
          { split; [by repeat constructor|]. intros lvl rest ts Hr R. unfold rows. cbn [map concat matoks fst snd]. rewrite app_nil_r, <- app_assoc. by apply L. }
          split; [done|]. split; [done|]. intros base p lvl Rd. rewrite orb_true_r. split; [by left|]. rewrite new_line_ok by done. cbn [mbind option_bind].
          rewrite E. cbn [mbind option_bind]. unfold fallen. cbn [map concat pend]. rewrite app_nil_r. rewrite <- !app_assoc. cbn [app]. by rewrite <- !app_assoc.
        - exists [], []. split; [split; [constructor|by intros]|]. split; [done|]. split; [done|]. intros base p lvl Rd. unfold fallen. cbn [map concat]. rewrite app_nil_r, orb_false_r. by split. }
      exists (la1 ++ la2), (at1 ++ at2). split.
      { destruct R1 as [Q1 L1], R2 as [Q2 L2]. split; [by apply Forall_app|]. intros lvl rest ts Hr R. unfold rows, matoks. rewrite !map_app, concat_app, <- !app_assoc.
        apply L1; [|by apply L2]. destruct la2 as [|a la2]; [done|]. apply Forall_cons in Q2 as [(_ & Na & Ba) _]. cbn [map concat]. rewrite <- !app_assoc. apply begins_nospace. by apply begins_app. }
      split.
      { rewrite M1, M2. destruct la1, la2; cbn; split; intros; try done; try (by left); try (by right); tauto. }
      split.
      { destruct (is_ref n); [destruct E1 as (m & Em & ->); exists m; by rewrite E2|by rewrite E1, E2]. }
      intros base p lvl k Rd. destruct (P1 base p lvl Rd) as [Rd1 ->]. cbn [mbind option_bind]. destruct (P2 _ _ lvl Rd1) as [Rd2 ->]. cbn [mbind option_bind].
      assert (fallen lvl (la1 ++ la2) = fallen lvl la1 ++ fallen lvl la2) as -> by (unfold fallen; by rewrite map_app, concat_app).
      rewrite (app_assoc base). assert (match la1 ++ la2 with [] => false | _ => true end = match la1 with [] => false | _ => true end || match la2 with [] => false | _ => true end) as -> by (by destruct la1, la2).
      rewrite orb_assoc. by split. }
    (* the reading of the attributes *)
    assert (forall v, mleaf_read (m_null d || is_ref n) (m_kind d) (c_val (vinfo v)) (c_null (vinfo v)) -> mreads i (MPay (mnames d) ats v)) as Rd.
    { intros v Hv. set (pay := MPay (mnames d) ats v). exists n, d. split; [done|]. split; [done|]. intros k p nx fc.
      assert (minf pay = CInfo (c_val (vinfo v)) (c_null (vinfo v)) (is_ref n && m_cref d) (if m_unnamed d then None else Some (m_name d)) None) as ->.
      { unfold minf. cbn [p_attrs p_names p_value pay].
        assert (named_info (mnames d) (vinfo v) = CInfo (c_val (vinfo v)) (c_null (vinfo v)) false (if m_unnamed d then None else Some (m_name d)) None) as ->.
        { unfold mnames. destruct (m_unnamed d), v; done. }
        destruct (is_ref n).
        - destruct Ea as (m & _ & ->). destruct (m_cref d), (referenced n); done.
        - rewrite Ea. by destruct (referenced n). }
      assert (is_ref (mfin pay k (blank p nx fc)) = is_ref n /\ referenced (mfin pay k (blank p nx fc)) = referenced n /\
        pub_idx (mfin pay k (blank p nx fc)) = (if referenced n then pub_idx n else 0%nat) /\
        (is_ref n = true -> exists m, ns !! first_child n = Some m /\ first_child (mfin pay k (blank p nx fc)) = pub_idx m)) as (Q1 & Q2 & Q3 & Q4).
      { unfold mfin. cbn [p_attrs pay]. clear -Ea.
        assert (forall x, attr_node (txt_ref_idx, Z.of_nat (pub_idx n)) x = set_idx (pub_idx n) x) as Ex.
        { intros x. unfold attr_node. cbn [fst snd]. by rewrite Nat2Z.id. }
        destruct (is_ref n).
        - destruct Ea as (m & Em & ->). assert (forall x, attr_node (if m_cref d then txt_ref_content else txt_ref, Z.of_nat (pub_idx m)) x = set_ref (pub_idx m) x) as Er.
          { intros x. unfold attr_node. cbn [fst snd]. rewrite Nat2Z.id. by destruct (m_cref d). }
          cbn [foldr]. rewrite Er. destruct (referenced n); cbn [foldr]; [rewrite Ex|]; cbn [set_ref set_idx blank is_ref referenced pub_idx first_child];
            (split; [done|split; [done|split; [done|intros _; by exists m]]]).
        - subst ats. destruct (referenced n); cbn [foldr]; [rewrite Ex|]; cbn [set_ref set_idx blank is_ref referenced pub_idx first_child]; by (split; [|split; [|split]]). }
      unfold mnode_read. cbn [c_name c_type c_cref c_val c_null]. split; [done|]. split; [done|]. split; [done|]. split; [done|]. split; [done|]. split; [done|]. split; [exact Q4|exact Hv]. }
    (* the text *)
    assert (forall h, scm_handler isprint wrapv buf n d = Some h -> forall base p lvl, ready base p -> scm_pre isprint wrapv buf js ns (base ++ pend p) i lvl =
      Some (base ++ sep p (marked n d) lvl (gap par i) ++ rows lvl las ++ mname_text d ++ (if bracketed n then [40] else []) ++ h)) as Pre.
    { intros h Eh base p lvl Rp. unfold scm_pre. rewrite (rd_lu _ _ _ En), (rd_lu _ _ _ Ed). cbn [mbind option_bind].
      destruct (Ep base p lvl (fun txt => txt ← (if m_unnamed d
             then c ← last txt;
                  if c =? 10 then new_line lvl txt
                  else if Nat.eqb (parent n) 0 then Some txt
                  else p ← rd ns (parent n); Some (if Nat.eqb (first_child p) i then txt else txt ++ [32])
             else txt ← new_line lvl txt; Some (txt ++ 40 :: m_name d ++ [32; 46; 32]));
        txt ← (if bracketed n then txt ← new_line_if lvl txt; Some (txt ++ [40]) else Some txt);
        txt ← (if m_unnamed d && Nat.eqb (first_child n) 0 then new_line_if lvl txt else Some txt);
        h ← scm_handler isprint wrapv buf n d; Some (txt ++ h)) Rp) as [Rp' E]. etransitivity; [exact E|]. clear E.
      set (p' := p || match las with [] => false | _ => true end) in *.
      assert (forall T, new_line_if lvl T = Some T ->
        (txt ← (if bracketed n then txt ← new_line_if lvl T; Some (txt ++ [40]) else Some T);
         txt ← (if m_unnamed d && Nat.eqb (first_child n) 0 then new_line_if lvl txt else Some txt);
         h ← scm_handler isprint wrapv buf n d; Some (txt ++ h)) = Some (T ++ (if bracketed n then [40] else []) ++ h)) as Q.
      { intros T HT. rewrite HT, Eh. cbn [mbind option_bind]. unfold bracketed. destruct (Nat.eqb (first_child n) 0).
        - cbn [negb andb]. cbn [mbind option_bind]. rewrite andb_true_r. destruct (m_unnamed d); [rewrite HT|]; done.
        - cbn [negb andb]. rewrite andb_false_r. destruct (is_ref n); cbn [negb mbind option_bind app]; [done|]. by rewrite <- app_assoc. }
      assert (match las with [] => false | _ => true end = is_ref n || referenced n) as El.
      { destruct las; [|]; destruct (is_ref n), (referenced n); try done; exfalso; try (apply (proj1 Mk); [auto|done]); destruct (proj2 Mk); done. }
      unfold sep, marked, mname_text. destruct (m_unnamed d) eqn:Eu; cbn [negb orb andb] in *.
      - destruct (last_pend _ _ Rp') as (c & -> & Ec). cbn [mbind option_bind]. rewrite Ec.
        subst p'. rewrite El in *. destruct (p || (is_ref n || referenced n)) eqn:Epp.
        + rewrite new_line_ok by done. cbn [mbind option_bind]. rewrite Q by apply new_line_if_again. f_equal. rewrite <- !app_assoc. f_equal. cbn [app]. apply roll.
        + apply orb_false_iff in Epp as [-> Epp]. destruct las as [|a las]; [|exfalso; rewrite Epp in El; done]. unfold fallen, rows. cbn [map concat pend app]. rewrite !app_nil_r.
          destruct Rp as [?|Tb]; [done|]. rewrite P. unfold gap. destruct (Nat.eqb_spec par 0) as [->|Np].
          * cbn [mbind option_bind]. rewrite Q by (by apply new_line_if_tailed). done.
          * destruct Hpar as [?|[pn Epn]]; [done|]. rewrite (rd_lu _ _ _ Epn), Epn. cbn [mbind option_bind]. destruct (Nat.eqb (first_child pn) i).
            -- rewrite Q by (by apply new_line_if_tailed). done.
            -- rewrite Q by (apply new_line_if_tailed; by apply tailed_snoc). by rewrite <- app_assoc.
      - rewrite new_line_ok by done. cbn [mbind option_bind]. rewrite Q.
        + rewrite orb_true_r. f_equal. rewrite <- !app_assoc. f_equal. cbn [app]. rewrite <- !app_assoc. cbn [app]. rewrite roll. reflexivity.
        + apply new_line_if_tailed. rewrite <- !app_assoc. apply tailed_app, tailed_app. change (40 :: m_name d ++ [32; 46; 32]) with ((40 :: m_name d) ++ [32; 46] ++ [32]).
          cbn [app]. apply (tailed_app (10 :: spaces (indent lvl))). apply (tailed_app (40 :: m_name d)). by exists 32. }
    assert (m_unnamed d = false -> musable (m_name d) /\ known (m_name d) = true) as Nm' by (intros E; rewrite E in Nm; by destruct Nm).
    unfold expandable in X. destruct (is_ref n) eqn:Er.
    - rewrite andb_false_r in X. subst ks. destruct K as [_ Kk].
      assert (bracketed n = false) as Eb by (unfold bracketed; rewrite Er; apply andb_false_r).
      exists n, d, las, ats, txt_nil. split; [done|]. split; [done|]. split; [done|]. split; [apply Pre|].
      { unfold scm_handler. rewrite Er, orb_true_r. destruct Kk as [-> |[s ->]]; done. }
      split; [done|]. rewrite Eb. split; [done|]. exists SFalse. split; [apply mleaf_nil|]. apply Rd. rewrite orb_true_r. destruct Kk as [-> |[s ->]]; done.
    - rewrite andb_true_r in X. destruct K as [Kk Kc]. case_decide as Hfc.
      + rewrite Hfc in X. cbn in X. subst ks.
        assert (bracketed n = false) as Eb by (unfold bracketed; by rewrite Hfc).
        destruct (mleaf_ok n d Er Kk Hfc Kc) as (h & v & Eh & L & R).
        exists n, d, las, ats, h. split; [done|]. split; [done|]. split; [done|]. split; [by apply Pre|]. split; [done|]. rewrite Eb. split; [done|]. exists v. split; [done|]. apply Rd. by rewrite Er in R.
      + assert (bracketed n = true) as Eb by (unfold bracketed; rewrite Er; by rewrite (proj2 (Nat.eqb_neq _ _) Hfc)).
        rewrite (proj2 (Nat.eqb_neq _ _) Hfc) in X. cbn in X. destruct X as (X1 & X2 & X3).
        exists n, d, las, ats, []. split; [done|]. split; [done|]. split; [done|]. split; [apply Pre|].
        { unfold scm_handler. rewrite Er, orb_false_r. destruct Kc as [-> |[-> ->]]; [|done]. by rewrite (proj2 (Nat.eqb_neq _ _) Hfc). }
        split; [done|]. rewrite Eb. split; [done|]. split; [done|]. split; [done|]. split; [done|]. split; [done|]. intros ws. apply Rd. rewrite orb_false_r. destruct Kc as [-> |[-> ->]]; done.
  Qed.

  Notation pays := (dinfos (fun a : mpay (F := F) => a)).
  Definition mrenames (t : tree) (d : doc (mpay (F := F))) : Prop := forall f k, (forall j i, nodes t !! j = Some i -> f i = (k + j)%nat) -> rename f t = number_doc k d.

  Lemma mfin_links (a : mpay (F := F)) k p nx fc : is_ref (mfin a k (blank p nx fc)) = false -> first_child (mfin a k (blank p nx fc)) = fc.
  Proof.
    unfold mfin. induction (p_attrs a) as [|[nm v] l IH]; [done|]. cbn [foldr]. unfold attr_node at 1 3. repeat case_decide; [done|done|exact IH|exact IH].
  Qed.
  Lemma mfin_plain (a : mpay (F := F)) (ks : list (doc (mpay (F := F)))) : (ks <> [] -> forall k p nx fc, is_ref (mfin a k (blank p nx fc)) = false) -> plain_links mfin a ks.
  Proof.
    intros H k p nx. cbv zeta. split; [by rewrite mfin_parent|]. split.
    { transitivity (next (set_next (mfin a k (blank p nx (match ks with [] => 0%nat | _ => S k end))) nx)); [|done]. by rewrite mfin_next. }
    destruct ks as [|t ks].
    - unfold expandable. destruct (is_ref (mfin a k (blank p nx 0))) eqn:E; [apply andb_false_r|]. by rewrite (mfin_links a k p nx 0 E).
    - pose proof (H ltac:(done) k p nx (S k)) as E. by rewrite (mfin_links a k p nx (S k) E).
  Qed.

  (** The text of a tree, whatever its level: what the visitor appends, and what the
      lexer makes of it. *)
  Definition mtree_text (t : tree) (par : nat) (mark q : bool) (toks : list (@mtok F)) (lvl : Z) : Prop :=
    exists body, nz body /\ body <> [] /\ begins body /\ ready body q /\
      (forall base p k, ready base p -> apply_events print (events lvl t) ns (base ++ pend p) k = k ns ((base ++ sep p mark lvl (gap par (root t)) ++ body) ++ pend q)) /\
      (forall rest ts, sstop rest -> mlexes rest ts -> mlexes (body ++ rest) (toks ++ ts)).
  Definition mtrees_text (ks : list tree) (par : nat) (mark q : bool) (toks : list (@mtok F)) (lvl : Z) : Prop :=
    exists body, nz body /\ body <> [] /\ begins body /\ ready body q /\
      (forall base p k, ready base p -> apply_events print (concat (map (events lvl) ks)) ns (base ++ pend p) k = k ns ((base ++ sep p mark lvl (gap par (hd_idx ks)) ++ body) ++ pend q)) /\
      (forall w rest ts, blanks w -> mlexes rest ts -> mlexes (body ++ w ++ 41 :: rest) (toks ++ MtRp :: ts)).

  Fixpoint flags {A} (l : list A) : list bool :=
    match l with
    | [] => []
    | _ :: l => match l with [] => false | _ => true end :: flags l
    end.
  Lemma flags_length {A} (l : list A) : length (flags l) = length l.
  Proof. induction l; cbn; auto. Qed.

  Definition mtree_goal (t : tree) (par nxt : nat) : Prop :=
    exists d mark q, good d /\ doc_all (plain_links mfin) d /\
      Forall2 mreads (nodes t) (pays d) /\ mrenames t d /\ dsize d = length (nodes t) /\
      forall lvl, mtree_text t par mark q (mtoks d) lvl.

  Lemma mkids_ok i ks : trees_at ns i ks -> ks <> [] -> (forall k, k ∈ tail ks -> gap i (root k) = [32]) ->
    (forall k nxt, k ∈ ks -> tree_at ns i nxt k -> mtree_goal k i nxt) ->
    exists ds mark q, length ds = length ks /\ Forall good ds /\ Forall (doc_all (plain_links mfin)) ds /\
      Forall2 mreads (concat (map nodes ks)) (concat (map pays ds)) /\
      dsizes ds = length (concat (map nodes ks)) /\
      (forall f k, (forall j i, concat (map nodes ks) !! j = Some i -> f i = (k + j)%nat) -> map (rename f) ks = number_docs k ds) /\
      forall lvl, mtrees_text ks i mark q (litoks (flags ds) (map mtoks ds)) lvl.
  Proof.
    intros A. induction ks as [|k ks IH]; intros Ne Hg H; [done|].
    cbn [trees_at] in A. destruct A as [A As]. destruct (H k (hd_idx ks) ltac:(by left) A) as (d & mark & q & G & Pl & R & Fr & Z & X).
    destruct ks as [|k2 ks].
    - exists [d], mark, q. split; [done|]. split; [by constructor|]. split; [by constructor|]. split; [cbn; by rewrite !app_nil_r|].
      split; [cbn [map concat]; rewrite dsizes_one, app_nil_r; lia|]. split.
      { intros f kk Hf. cbn [map number_docs]. f_equal. apply Fr. intros j x E. apply Hf. cbn [map concat]. by rewrite app_nil_r. }
      intros lvl. destruct (X lvl) as (body & T1 & T2 & T3 & T4 & T5 & T6). exists body. do 4 (split; [done|]). split.
      + intros base p kk Rd. cbn [map concat]. rewrite app_nil_r. by apply T5.
      + intros w rest ts B Hr. cbn [flags map litoks wstoks app]. rewrite app_nil_r. apply T6; [by apply sstop_close|]. by apply mlexes_rp.
    - destruct IH as (ds & mark2 & q2 & Ln & G' & Pl' & R' & Z' & Fr' & X'); [done|done| |intros; apply H; [by right|done]|].
      { intros k' Hk'. apply Hg. cbn [tail] in *. by right. }
      exists (d :: ds), mark, q2. split; [cbn in *; lia|]. split; [by constructor|]. split; [by constructor|]. split; [cbn [map concat]; by apply Forall2_app|].
      split; [cbn [map concat] in *; rewrite dsizes_cons, app_length; lia|]. split.
      + intros f kk Hf. cbn [number_docs]. change (map (rename f) (k :: k2 :: ks)) with (rename f k :: map (rename f) (k2 :: ks)). f_equal.
        * apply Fr. intros j x E. apply Hf. cbn [map concat]. by apply lookup_app_l_Some.
        * apply Fr'. intros j x E. rewrite Z. rewrite (Hf (length (nodes k) + j)%nat x); [lia|].
          change (concat (map nodes (k :: k2 :: ks))) with (nodes k ++ concat (map nodes (k2 :: ks))). rewrite lookup_app_r by lia. by replace (_ + j - _)%nat with j by lia.
      + intros lvl. destruct (X lvl) as (body & T1 & T2 & T3 & T4 & T5 & T6), (X' lvl) as (body' & T1' & T2' & T3' & T4' & T5' & T6').
        assert (gap i (hd_idx (k2 :: ks)) = [32]) as Eg by (apply Hg; left).
        assert (blanks (sep q mark2 lvl [32]) /\ sep q mark2 lvl [32] <> []) as [Bs Ns].
        { unfold sep. destruct (q || mark2); (split; [|done]); [apply blanks_line|]. by repeat constructor. }
        exists (body ++ sep q mark2 lvl [32] ++ body'). split; [|split; [|split; [|split; [|split]]]].
        * apply nz_app. split; [done|]. apply nz_app. split; [by apply blanks_nz|done].
        * by destruct body.
        * by apply begins_app.
        * destruct T4' as [->|T4']; [by left|]. right. by apply tailed_app, tailed_app.
        * intros base p kk Rd. change (concat (map (events lvl) (k :: k2 :: ks))) with (events lvl k ++ concat (map (events lvl) (k2 :: ks))).
          rewrite apply_events_app, T5 by done. rewrite T5'.
          -- rewrite Eg. f_equal. rewrite <- !app_assoc. done.
          -- destruct T4 as [->|T4]; [by left|]. right. by apply tailed_app, tailed_app.
        * intros w rest ts B Hr. pose proof (T6' w rest ts B Hr) as L.
          cbn [flags map litoks]. destruct ds as [|d2 ds]; [done|]. cbn [wstoks app].
          rewrite <- !app_assoc. apply T6; [by apply begins_blank|]. cbn [app]. apply mlexes_ws; [done|done| |exact L]. by apply begins_app.
  Qed.

  Lemma mtree_ok t : forall par nxt, tree_at ns par nxt t -> NoDup (nodes t) -> par = 0%nat \/ is_Some (ns !! par) ->
    (forall i, i ∈ nodes t -> i ∈ nodes t0 /\ mnode_ok known wrapv ns js t0 i) -> mtree_goal t par nxt.
  Proof.
    induction t as [i ks IH] using tree_ind'. intros par nxt A Nd Hpar Ok.
    destruct (Ok i ltac:(by left)) as [I0 Ok0].
    destruct (mpre_ok i par nxt ks A Ok0 I0 Hpar) as (n & d & las & ats & h & En & Ed & [Rq Rl] & Pre & Nm & C).
    cbn [nodes] in Nd. apply NoDup_cons in Nd as [Ni Nd].
    rewrite tree_at_eq in A. destruct A as (n' & En' & Zi & _ & _ & X). rewrite En in En'. injection En' as <-.
    (* the name *)
    assert (forall Y rest ts l, begins Y -> Y <> [] -> mlexes (Y ++ (if m_unnamed d then [] else [41]) ++ rest) (l ++ (if m_unnamed d then [] else [MtRp]) ++ ts) ->
      mlexes ((mname_text d ++ Y ++ (if m_unnamed d then [] else [41])) ++ rest) (wrap (mnames d) l ++ ts)) as Ln.
    { intros Y rest ts l By Ny L. unfold mname_text, mnames. destruct (m_unnamed d); cbn [wrap app] in *; [by rewrite <- app_assoc|].
      destruct Nm as [U _]; [done|]. pose proof U as [(c & s & Es & Hc & _) _].
      rewrite <- !app_assoc. apply (mlexes_lp []); [constructor| |].
      { rewrite Es. cbn. unfold isspace. unfold ident_start in Hc. lia. }
      apply mlexes_id; [done|done|]. apply mlexes_dot; [by apply begins_nospace, begins_app|]. exact L. }
    assert (nz (mname_text d)) as Nn.
    { unfold mname_text. destruct (m_unnamed d); [constructor|]. destruct Nm as [[U _] _]; [done|]. constructor; [lia|]. apply nz_app. split; [|repeat constructor; lia].
      apply identifier_chars in U. eapply Forall_impl; [exact U|]. unfold ident_char, ident_start. cbn. intros; lia. }
    assert (forall Y, begins Y -> Y <> [] -> begins (mname_text d ++ Y)) as Bn by (intros Y By Ny; unfold mname_text; by destruct (m_unnamed d)).
    assert (Forall (fun nm => known nm = true) (mnames d)) as Gn.
    { unfold mnames. destruct (m_unnamed d); [constructor|]. constructor; [by apply Nm|constructor]. }
    assert (forall lvl Y, Y <> [] -> rows lvl las ++ mname_text d ++ Y <> []) as Nr.
    { intros lvl Y Ny E. apply app_nil in E as [_ E]. by apply app_nil in E as [_ E]. }
    assert (forall v ds, plain_links mfin (MPay (mnames d) ats v) ds \/ mreads i (MPay (mnames d) ats v) /\ (ds <> [] -> is_ref n = false) -> plain_links mfin (MPay (mnames d) ats v) ds) as Pk.
    { intros v ds [?|[Rd Hr]]; [done|]. apply mfin_plain. intros Ne k p nx fc. destruct Rd as (n1 & d1 & En1 & _ & Rd). rewrite En in En1. injection En1 as <-.
      destruct (Rd k p nx fc) as (_ & _ & _ & -> & _). by apply Hr. }
    destruct (bracketed n) eqn:Eb.
    - destruct C as (-> & Er & Ne & Hf & Tk & C).
      destruct (mkids_ok i ks Tk Ne) as (ds & mark & q & Lk & G & Pl & R & Z & Fr & XX).
      { intros k Hk. unfold gap. rewrite (proj2 (Nat.eqb_neq _ _) Zi), En, Hf. destruct ks as [|k1 ks]; [done|]. cbn [hd_idx tail] in *.
        rewrite (proj2 (Nat.eqb_neq _ _)); [done|]. intros E. cbn [map concat] in Nd. apply NoDup_app in Nd as (_ & Nd & _).
        apply (Nd (root k1)); [destruct k1; by left|]. rewrite E. apply elem_of_list_In, in_concat. exists (nodes k). split; [apply in_map; by apply elem_of_list_In|]. apply elem_of_list_In. destruct k; by left. }
      { intros k nx I Ak. rewrite Forall_forall in IH. apply (IH k I); [done| |right; eauto|].
        - clear -I Nd. induction ks as [|k0 ks IH]; [by apply elem_of_nil in I|]. cbn in Nd. apply NoDup_app in Nd as (N1 & _ & N2). apply elem_of_cons in I as [-> | I]; auto.
        - intros x Hx. apply Ok. cbn [nodes]. right. apply elem_of_list_In, in_concat. exists (nodes k). split; [apply in_map; by apply elem_of_list_In|by apply elem_of_list_In]. }
      set (pay := MPay (mnames d) ats (SList (F := F) (flags ds))) in *.
      exists (Doc pay ds), (marked n d), true.
      split; [apply doc_all_eq; split; [split; [done|]; cbn; apply flags_length|done]|].
      split; [apply doc_all_eq; split; [|done]; apply Pk; right; split; [apply C|done]|].
      split; [cbn [nodes dinfos]; constructor; [apply C|done]|].
      split; [intros f k Hff; rewrite number_doc_eq; cbn [rename]; f_equal; [rewrite (Hff 0%nat i eq_refl); lia|]; apply Fr; intros j x E; rewrite (Hff (S j) x); [lia|done]|].
      split; [cbn [nodes length]; rewrite <- Z; done|].
      intros lvl. destruct (XX (lvl + 1)) as (body & T1 & T2 & T3 & T4 & T5 & T6).
      set (w1 := sep false mark (lvl + 1) (gap i (hd_idx ks))). set (w2 := if q then 10 :: spaces (indent lvl) else []).
      assert (blanks w1) as B1.
      { unfold w1, sep. cbn [orb]. destruct mark; [apply blanks_line|]. unfold gap. destruct (Nat.eqb i 0); [constructor|]. rewrite En, Hf, Nat.eqb_refl. constructor. }
      assert (blanks w2) as B2 by (unfold w2; destruct q; [apply blanks_line|constructor]).
      set (Y := 40 :: w1 ++ body ++ w2 ++ [41]).
      exists (rows lvl las ++ mname_text d ++ Y ++ (if m_unnamed d then [] else [41])). split; [|split; [|split; [|split; [by left|split]]]].
      + apply nz_app. split; [by apply rows_nz|]. apply nz_app. split; [done|]. apply nz_app. split; [|destruct (m_unnamed d); repeat constructor; lia].
        constructor; [lia|]. apply nz_app. split; [by apply blanks_nz|]. apply nz_app. split; [done|]. apply nz_app. split; [by apply blanks_nz|repeat constructor; lia].
      + by apply Nr.
      + apply rows_begins; [done|]. by apply Bn.
      + intros base p k Rd. cbn [events apply_events]. unfold visit at 1. unfold scm_print_node at 1. rewrite (Pre base p lvl Rd). cbn [mbind option_bind].
        rewrite app_nil_r. rewrite apply_events_app.
        set (base' := base ++ sep p (marked n d) lvl (gap par i) ++ rows lvl las ++ mname_text d ++ [40]).
        assert (tailed base') as Tb' by (unfold base'; do 3 (apply tailed_app); by apply tailed_snoc).
        pose proof (T5 base' false) as E5. cbn [pend] in E5. rewrite app_nil_r in E5. rewrite E5 by (by right).
        fold w1. cbn [apply_events]. unfold visit, scm_print_node, scm_post. rewrite (rd_lu _ _ _ En), (rd_lu _ _ _ Ed). cbn [mbind option_bind].
        rewrite Eb, orb_true_r, new_line_if_ok.
        2:{ destruct T4 as [->|T4]; [by left|]. right. by apply tailed_app, tailed_app. }
        cbn [mbind option_bind]. fold w2. f_equal. unfold base', Y. cbn [root]. rewrite andb_true_r. destruct (m_unnamed d); cbn [negb pend]; rewrite <- ?app_assoc; cbn [app]; rewrite <- ?app_assoc; cbn [app]; rewrite ?app_nil_r; done.
      + intros rest ts St Hr. rewrite <- app_assoc. rewrite mtoks_eq. cbn [p_attrs p_names p_value pay]. rewrite <- (app_assoc (matoks ats)). apply Rl.
        { rewrite <- app_assoc. apply begins_nospace. by apply Bn. }
        apply Ln; [done|done|]. unfold Y. cbn [mvtoks app]. rewrite <- !app_assoc. apply mlexes_lp; [done|by apply begins_nospace, begins_app|].
        cbn [app]. apply T6; [done|]. destruct (m_unnamed d); cbn [app]; [done|]. apply (mlexes_rp []); [constructor|done].
    - destruct C as (-> & v & (L1 & L2 & L3 & L4 & L5 & L6) & C).
      set (pay := MPay (mnames d) ats v) in *.
      exists (Doc pay []), (marked n d), (negb (m_unnamed d)).
      split; [apply doc_all_eq; split; [by split|constructor]|].
      split; [apply doc_all_eq; split; [|constructor]; apply Pk; right; by split|].
      split; [cbn; constructor; [done|constructor]|].
      split; [intros f k Hff; rewrite number_doc_eq; cbn [rename]; f_equal; rewrite (Hff 0%nat i eq_refl); lia|].
      split; [done|]. intros lvl.
      exists (rows lvl las ++ mname_text d ++ h ++ (if m_unnamed d then [] else [41])). split; [|split; [|split; [|split; [|split]]]].
      + apply nz_app. split; [by apply rows_nz|]. apply nz_app. split; [done|]. apply nz_app. split; [done|destruct (m_unnamed d); repeat constructor; lia].
      + apply Nr. by destruct h.
      + apply rows_begins; [done|]. apply Bn; [by apply begins_app|by destruct h].
      + destruct (m_unnamed d); [|by left]. right. rewrite app_nil_r. by apply tailed_app, tailed_app.
      + intros base p k Rd. cbn [events apply_events map concat app]. unfold visit at 1. unfold scm_print_node at 1. rewrite (Pre base p lvl Rd). cbn [mbind option_bind].
        unfold visit, scm_print_node, scm_post. rewrite (rd_lu _ _ _ En), (rd_lu _ _ _ Ed). cbn [mbind option_bind]. rewrite Eb, orb_false_r, andb_false_r. cbn [app root].
        destruct (m_unnamed d); cbn [negb pend].
        * cbn [mbind option_bind]. by rewrite !app_nil_r.
        * rewrite new_line_if_tailed by (by do 4 apply tailed_app). cbn [mbind option_bind]. f_equal. by rewrite <- !app_assoc.
      + intros rest ts St Hr. rewrite <- app_assoc. rewrite mtoks_eq. cbn [p_attrs p_names p_value pay map]. rewrite <- (app_assoc (matoks ats)). apply Rl.
        { rewrite <- !app_assoc. apply begins_nospace. apply Bn; [by apply begins_app|by destruct h]. }
        apply Ln; [done|done|]. apply L6.
        * destruct (m_unnamed d); [done|]. cbn. auto.
        * destruct (m_unnamed d); [done|]. apply (mlexes_rp []); [constructor|done].
  Qed.
End Save.
