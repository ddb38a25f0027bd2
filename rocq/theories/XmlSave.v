(** The text mr_xml1_save prints, read back. *)
From Verif Require Import Base Ptrs NumStr NumStrProof Enum EnumProof Quote QuoteProof XmlQuote XmlQuoteProof Parse ParseProof Json LexProof JsonLex JsonSpec JsonSave Value Cinit CinitSpec CinitLex CinitSave Scm ScmLex ScmSave DfsProof Xml XmlParse XmlSpec XmlLex.
Local Open Scope Z_scope.

Lemma xident_null : identifier txt_isnull /\ identifier [118; 101; 114; 115; 105; 111; 110].
Proof.
  split; (eexists _, _; split; [reflexivity|]; split; [unfold ident_start; lia|]); repeat (constructor; [unfold ident_char, ident_start; lia|]); constructor.
Qed.
Lemma ident_nz nm : identifier nm -> nz nm.
Proof. intros H. apply identifier_chars in H. eapply Forall_impl; [exact H|]. unfold ident_char, ident_start. cbn. intros; lia. Qed.
Lemma ident_local nm : identifier nm -> local_name nm = nm.
Proof.
  intros H. apply identifier_chars in H. unfold local_name. assert (existsb (Z.eqb 58) nm = false) as ->; [|done].
  induction H as [|c l Hc _ IH]; [done|]. cbn [existsb]. rewrite IH. unfold ident_char, ident_start in Hc. destruct (Z.eqb_spec 58 c); [lia|done].
Qed.
Lemma blanks_xline lvl : blanks (xml_line lvl).
Proof. apply blanks_line. Qed.
Lemma blanks_isspace w : blanks w -> Forall (fun c => isspace c = true) w.
Proof. intros B. eapply Forall_impl; [exact B|]. cbn. intros c [-> | ->]; done. Qed.
Lemma no_amp l : Forall (fun c => c <> 38) l -> existsb (Z.eqb 38) l = false.
Proof. induction 1 as [|c l Hc _ IH]; [done|]. cbn [existsb]. rewrite IH. destruct (Z.eqb_spec 38 c); [by subst|done]. Qed.

Section Save.
  Context {F : Type} `{FL : Floats F}.
  Context (isprint : Z -> bool) (known : list Z -> bool) (wrapv : bool).
  Context (buf : list Z) (ns : list node) (js : list xinfo).
  Context (Hbuf : length buf = print_buffer) (Hprint : isprint 0 = false).
  Notation print := (xml_print_node isprint wrapv buf js).
  Notation good := (doc_all (xgood (F := F) known)).
  Notation calm := (doc_all xcalm).

  (** ** Values *)
  Lemma xquote_nz s : Forall is_byte s -> nz (xml_quote isprint s).
  Proof.
    intros B. unfold xml_quote. induction B as [|c s Hc _ IH]; [constructor|]. cbn [map concat]. apply nz_app. split; [|done].
    destruct (xml_cases isprint c) as [(m & -> & Hm & Hin)|[(-> & _ & Hp)|(-> & _ & _)]].
    - rewrite !elem_of_cons, elem_of_nil in Hin. destruct Hin as [-> |[-> |[-> |[-> |[]]]]]; cbn in Hm; subst m; repeat constructor; lia.
    - constructor; [congruence|constructor].
    - unfold is_byte in Hc. assert (0 <= c / 16 < 16) by (split; [apply Z.div_pos; lia|apply Z.div_lt_upper_bound; lia]).
      assert (0 <= c mod 16 < 16) by (apply Z.mod_pos_bound; lia).
      pose proof (hex_up_range (c / 16) ltac:(lia)). pose proof (hex_up_range (c mod 16) ltac:(lia)). repeat constructor; lia.
  Qed.

  Lemma xvalue_plain h : Forall (fun c => c <> 38) h -> exists v, xml_value (F := F) h = Some v /\ holds v h.
  Proof. intros N. unfold xml_value. rewrite no_amp by done. eexists. split; [done|]. right. by left. Qed.

  Lemma xvalue_quoted s : Forall is_byte s -> exists v, xml_value (F := F) (xml_quote isprint s) = Some v /\ (holds v (c_string s) \/ xml_quote isprint s = s /\ holds v s).
  Proof.
    intros B. unfold xml_value. destruct (existsb (Z.eqb 38) (xml_quote isprint s)) eqn:E.
    - pose proof (xml_quoted_length isprint s) as Lq.
      pose proof (xml_loop_ok isprint s [] [60] (S (length (xml_quote isprint s))) B ltac:(lia)) as X. cbn [app length Nat.add] in X. rewrite X.
      cbn [mbind option_bind]. eexists. split; [done|]. left. by left.
    - pose proof (xml_no_amp isprint s E) as E'. rewrite E'. eexists. split; [done|]. right. split; [done|]. right. by left.
  Qed.

  Lemma xhandler_ok k : xkind_ok wrapv k -> exists h s v, xml_handler isprint wrapv buf k = Some h /\ nz h /\ nolt h /\
    (h = [] -> s = []) /\ (k = XNothing -> h = []) /\ xml_value (F := F) h = Some v /\ holds v s /\ says false k s.
  Proof.
    intros K. destruct k as [|b|t data|s|c|txt|addr]; cbn [xkind_ok xml_handler says] in *.
    - exists [], [], (VSubstr [60; 0] 0). split; [done|]. split; [constructor|]. split; [constructor|]. do 3 (split; [done|]). split; [|done]. right. by left.
    - set (h := if b then Json.txt_true else Json.txt_false).
      assert (Forall (fun c => c <> 0 /\ c <> 38 /\ c <> 60) h) as A by (destruct b; repeat constructor; lia).
      destruct (xvalue_plain h) as (v & Ev & Hv); [eapply Forall_impl; [exact A|]; cbn; intros; lia|].
      exists h, h, v. split; [done|]. split; [eapply Forall_impl; [exact A|]; cbn; intros; lia|]. split; [eapply Forall_impl; [exact A|]; cbn; intros; lia|].
      split; [done|]. split; [done|]. split; [done|]. split; [done|by destruct b].
    - destruct K as [Kt Kw]. destruct (print_int_ok (fun _ => true) isprint wrapv buf Hbuf Hprint t data Kt Kw) as (neg & ds & E & P & V).
      pose proof P as (N & Fd & _).
      assert (Forall (fun c => c = 45 \/ dig c) (sgn neg ++ ds)) as A.
      { apply Forall_app. split; [destruct neg; [by repeat constructor|constructor]|]. eapply Forall_impl; [exact Fd|]. cbn. auto. }
      destruct (xvalue_plain (sgn neg ++ ds)) as (v & Ev & Hv); [eapply Forall_impl; [exact A|]; unfold dig; cbn; intros; lia|].
      exists (sgn neg ++ ds), (sgn neg ++ ds), v. split; [done|]. split; [eapply Forall_impl; [exact A|]; unfold dig; cbn; intros; lia|].
      split; [eapply Forall_impl; [exact A|]; unfold dig; cbn; intros; lia|]. split; [done|]. split; [done|]. split; [done|]. split; [done|].
      exists neg, ds. split; [done|]. split; [exact P|exact V].
    - assert (Forall is_byte s) as Hb by (eapply Forall_impl; [exact K|]; unfold is_byte; cbn; intros; lia).
      destruct (xvalue_quoted s Hb) as (v & Ev & Hv). exists (xml_quote isprint s), s, v. split; [done|]. split; [by apply xquote_nz|].
      split; [eapply Forall_impl; [exact (xml_quoted_chars isprint s Hb)|]; cbn; tauto|].
      split; [intros E; pose proof (xml_quoted_length isprint s) as Lq; rewrite E in Lq; destruct s; [done|cbn in Lq; lia]|]. split; [done|]. split; [done|]. split; [|done].
      destruct Hv as [Hv|[_ Hv]]; [|done]. rewrite c_string_id in Hv; [done|]. eapply Forall_impl; [exact K|]. cbn. intros; lia.
    - assert (Forall is_byte [c]) as Hb by (repeat constructor; unfold is_byte; lia).
      assert (xml_quote_char isprint c = xml_quote isprint [c]) as Eq by (unfold xml_quote; cbn [map concat]; by rewrite app_nil_r). rewrite Eq.
      destruct (xvalue_quoted [c] Hb) as (v & Ev & Hv). exists (xml_quote isprint [c]), (if decide (c = 0) then [] else [c]), v. split; [done|]. split; [by apply xquote_nz|].
      split; [eapply Forall_impl; [exact (xml_quoted_chars isprint [c] Hb)|]; cbn; tauto|].
      split; [intros E; pose proof (xml_quoted_length isprint [c]) as Lq; rewrite E in Lq; cbn in Lq; lia|]. split; [done|]. split; [done|]. split; [|done].
      destruct Hv as [Hv|[E Hv]].
      + case_decide as Hc; [by subst|]. rewrite c_string_id in Hv; [done|]. by repeat constructor.
      + case_decide as Hc; [|done]. subst. pose proof (xquote_nz [0] Hb) as X. rewrite E in X. by apply Forall_cons in X as [X _].
    - destruct (xvalue_plain txt) as (v & Ev & Hv); [eapply Forall_impl; [exact K|]; cbn; intros; lia|].
      exists txt, txt, v. split; [done|]. split; [eapply Forall_impl; [exact K|]; cbn; intros; lia|]. split; [eapply Forall_impl; [exact K|]; cbn; intros; lia|]. by do 4 (split; [done|]).
    - destruct (hex_digits_ok 16 addr ltac:(lia) ltac:(change (16 ^ Z.of_nat 16) with (2 ^ 64); lia)) as (N & D & Fx & V).
      assert (Forall (fun c => c <> 0 /\ c <> 38 /\ c <> 60) ([48; 120] ++ hex_digits 16 addr)) as A.
      { apply Forall_app. split; [repeat constructor; lia|]. eapply Forall_impl; [exact Fx|]. cbn. intros x Hx. split; [|split]; intros ->; done. }
      destruct (xvalue_plain ([48; 120] ++ hex_digits 16 addr)) as (v & Ev & Hv); [eapply Forall_impl; [exact A|]; cbn; intros; lia|].
      exists ([48; 120] ++ hex_digits 16 addr), ([48; 120] ++ hex_digits 16 addr), v. split; [done|]. split; [eapply Forall_impl; [exact A|]; cbn; intros; lia|].
      split; [eapply Forall_impl; [exact A|]; cbn; intros; lia|]. do 4 (split; [done|]). exists (hex_digits 16 addr). done.
  Qed.

  (** ** Trees *)
  Context (t0 : tree) (Hpub : forall i m, i ∈ nodes t0 -> ns !! i = Some m -> Z.of_nat (pub_idx m) < 2 ^ 32).
  Context (Hin : forall i, i ∈ nodes t0 -> exists m, ns !! i = Some m).

  Definition xreads (i : nat) (a : xpay) : Prop := exists n d, ns !! i = Some n /\ js !! i = Some d /\
    forall k p nx fc, xnode_read (F := F) ns n d (xfin a k (blank p nx fc)) (xinf a).

  Definition attrs (ps : list (list Z * list Z)) : list Z := concat (map (fun p => xml_attr p.1 p.2) ps).
  Definition attr_ok (p : list Z * list Z) : Prop := identifier p.1 /\ Forall (fun c => c <> 34 /\ c <> 0) p.2 /\ prop_ok p.

  Lemma attrs_nz ps : Forall attr_ok ps -> nz (attrs ps).
  Proof.
    induction 1 as [|[id v] ps (H1 & H2 & _) _ IH]; [constructor|]. unfold attrs in *. cbn [map concat fst snd] in *. apply nz_app. split; [|done].
    unfold xml_attr. constructor; [lia|]. apply nz_app. split; [by apply ident_nz|]. constructor; [lia|]. constructor; [lia|]. apply nz_app.
    split; [eapply Forall_impl; [exact H2|]; cbn; tauto|repeat constructor; lia].
  Qed.
  Lemma attrs_lex ps rest ts : Forall attr_ok ps -> xlexes rest ts -> xlexes (attrs ps ++ rest) (ptoks ps ++ ts).
  Proof.
    intros H R. induction H as [|[id v] ps (H1 & H2 & _) _ IH]; [done|]. unfold attrs, ptoks in *. cbn [map concat fst snd] in *. rewrite <- !app_assoc.
    cbn [app]. apply xlexes_prop; [done|eapply Forall_impl; [exact H2|]; cbn; tauto|done].
  Qed.
  Lemma attrs_stop ps rest : xstop rest -> xstop (attrs ps ++ rest).
  Proof. intros H. destruct ps as [|[id v] ps]; [done|]. unfold attrs, xml_attr. cbn. done. Qed.

  Lemma xattr_num nm m : identifier nm -> Z.of_nat (pub_idx m) < 2 ^ 32 -> exists ds,
    xml_attr_int wrapv buf nm (pub_idx m) = Some (xml_attr nm ds) /\ attr_ok (nm, ds) /\ load_idx ds = Some (pub_idx m).
  Proof.
    intros I L. destruct (pub_number (fun _ => true) isprint wrapv buf ns Hbuf Hprint t0 Hpub m L) as (ds & E & P & V).
    exists ds. unfold xml_attr_int. rewrite E. split; [done|]. rewrite (load_idx_ok ds P) by lia. rewrite V, Nat2Z.id. split; [|done]. split; [done|]. split.
    - destruct P as (_ & Fd & _). eapply Forall_impl; [exact Fd|]. unfold dig. cbn. intros; lia.
    - intros _. cbn [snd]. rewrite (load_idx_ok ds P) by lia. by eexists.
  Qed.

  (** What the opening of a node appends, with the properties it has. *)
  Definition xend (closed : bool) (h : list Z) : list Z := if closed then [47; 62] else 62 :: h.

  Lemma xpre_ok i par nxt ks : tree_at ns par nxt (T i ks) -> xnode_ok known wrapv ns js t0 i -> i ∈ nodes t0 ->
    exists n d ps closed h, ns !! i = Some n /\ js !! i = Some d /\ identifier (tag_name d) /\ known (tag_name d) = true /\ Forall attr_ok ps /\
      (forall c lvl, xml_pre isprint wrapv buf js ns c i lvl =
         Some (c.1 ++ xml_line lvl ++ 60 :: tag_name d ++ attrs ps ++ xend closed h, (i, closed) :: c.2)) /\
      (ks <> [] -> Forall (fun p => p.1 <> txt_ref /\ p.1 <> txt_ref_content) ps) /\
      (negb (Nat.eqb (first_child n) 0) && negb (is_ref n) = match ks with [] => false | _ => true end) /\
      match ks with
      | [] => if closed then forall w, xreads i (XPay (tag_name d) ps (XBEmpty w))
              else nz h /\ nolt h /\ is_Some (xml_value (F := F) h) /\ forall w, xreads i (XPay (tag_name d) ps (XBFull h w))
      | _ => closed = false /\ h = [] /\ trees_at ns i ks /\ forall c w, blanks c -> xreads i (XPay (tag_name d) ps (XBFull c w))
      end.
  Proof.
    intros A (n & d & En & Ed & Id & Kn & K) I0. rewrite tree_at_eq in A. destruct A as (n' & En' & Hz & P & Nx & X). rewrite En in En'. injection En' as <-.
    destruct sident_ref as (Ir & Irc & Iri). destruct xident_null as [Inl _].
    (* the properties *)
    assert (exists p1, (if is_ref n then m ← rd ns (first_child n); xml_attr_int wrapv buf (if x_cref d then txt_ref_content else txt_ref) (pub_idx m) else Some []) = Some (attrs p1) /\
      Forall attr_ok p1 /\ if is_ref n then exists m ds, ns !! first_child n = Some m /\ p1 = [(if x_cref d then txt_ref_content else txt_ref, ds)] /\ load_idx ds = Some (pub_idx m) else p1 = []) as (p1 & E1 & A1 & S1).
    { destruct (is_ref n).
      - destruct (Hin _ K) as [m Em]. destruct (xattr_num (if x_cref d then txt_ref_content else txt_ref) m ltac:(by destruct (x_cref d)) (Hpub _ _ K Em)) as (ds & E & Ok & L).
        exists [(if x_cref d then txt_ref_content else txt_ref, ds)]. rewrite (rd_lu _ _ _ Em). cbn [mbind option_bind]. rewrite E.
        split; [unfold attrs; cbn [map concat fst snd]; by rewrite app_nil_r|]. split; [by constructor|]. by exists m, ds.
      - exists []. split; [done|]. by split. }
    assert (exists p2, (if referenced n then xml_attr_int wrapv buf txt_ref_idx (pub_idx n) else Some []) = Some (attrs p2) /\
      Forall attr_ok p2 /\ if referenced n then exists ds, p2 = [(txt_ref_idx, ds)] /\ load_idx ds = Some (pub_idx n) else p2 = []) as (p2 & E2 & A2 & S2).
    { destruct (referenced n).
      - destruct (xattr_num txt_ref_idx n Iri (Hpub _ _ I0 En)) as (ds & E & Ok & L). exists [(txt_ref_idx, ds)]. rewrite E.
        split; [unfold attrs; cbn [map concat fst snd]; by rewrite app_nil_r|]. split; [by constructor|]. by exists ds.
      - exists []. split; [done|]. by split. }
    set (p3 := if x_null d then [(txt_isnull, Json.txt_true)] else []).
    assert ((if x_null d then xml_attr txt_isnull Json.txt_true else []) = attrs p3 /\ Forall attr_ok p3) as [E3 A3].
    { unfold p3. destruct (x_null d); [|by split]. split; [unfold attrs; cbn [map concat fst snd]; by rewrite app_nil_r|]. constructor; [|constructor].
      split; [done|]. split; [repeat constructor; lia|]. intros I. rewrite !elem_of_cons, elem_of_nil in I. cbn [fst] in I. destruct I as [?|[?|[?|[]]]]; done. }
    set (ps := p1 ++ p2 ++ p3).
    assert (attrs ps = attrs p1 ++ attrs p2 ++ attrs p3) as Ea by (unfold ps, attrs; by rewrite !map_app, !concat_app).
    (* reading *)
    assert (forall b v s, x_value (F := F) b = Some v -> holds v s -> (if x_null d || is_ref n then s = [] else says (negb (Nat.eqb (first_child n) 0)) (x_kind d) s) -> xreads i (XPay (tag_name d) ps b)) as Rd.
    { intros b v s Ev Hv Hs. exists n, d. split; [done|]. split; [done|]. intros k p nx fc. set (pay := XPay (tag_name d) ps b).
      assert (xinf pay = CInfo v (x_null d) (is_ref n && x_cref d) (Some (tag_name d)) None) as ->.
      { unfold xinf. cbn [pay x_props x_tag x_body]. rewrite Ev, ident_local by done. unfold ps. rewrite !foldl_app.
        assert (foldl prop_info (cinfo0 (F := F)) p1 = CInfo VVoid false (is_ref n && x_cref d) None None) as ->.
        { destruct (is_ref n); [|by rewrite S1]. destruct S1 as (m & ds & _ & -> & _). by destruct (x_cref d). }
        assert (forall x : cinfo (F := F), foldl prop_info x p2 = x) as -> by (intros x; destruct (referenced n); [destruct S2 as (ds & -> & _); done|by rewrite S2]).
        unfold p3. by destruct (x_null d). }
      assert (is_ref (xfin pay k (blank p nx fc)) = is_ref n /\ referenced (xfin pay k (blank p nx fc)) = referenced n /\
        pub_idx (xfin pay k (blank p nx fc)) = (if referenced n then pub_idx n else 0%nat) /\
        (is_ref n = true -> exists m, ns !! first_child n = Some m /\ first_child (xfin pay k (blank p nx fc)) = pub_idx m)) as (Q1 & Q2 & Q3 & Q4).
      { unfold xfin. cbn [pay x_props]. unfold ps. rewrite !foldl_app.
        assert (forall x, foldl prop_node x p3 = x) as -> by (intros x; unfold p3; by destruct (x_null d)).
        assert (forall x, foldl prop_node x p2 = if referenced n then set_idx (pub_idx n) x else x) as ->.
        { intros x. destruct (referenced n); [destruct S2 as (ds & -> & L)|by rewrite S2]. cbn [foldl]. unfold prop_node. cbn [fst snd]. by rewrite L. }
        destruct (is_ref n).
        - destruct S1 as (m & ds & Em & -> & L). cbn [foldl]. assert (prop_node (blank p nx fc) (if x_cref d then txt_ref_content else txt_ref, ds) = set_ref (pub_idx m) (blank p nx fc)) as ->.
          { unfold prop_node. cbn [fst snd]. rewrite L. by destruct (x_cref d). }
          destruct (referenced n); (split; [done|split; [done|split; [done|intros _; by exists m]]]).
        - rewrite S1. cbn [foldl]. by destruct (referenced n). }
      unfold xnode_read. cbn [c_name c_type c_cref c_val c_null]. split; [done|]. split; [done|]. split; [done|]. split; [done|]. split; [done|]. split; [done|]. split; [done|]. split; [exact Q4|].
      exists s. by split. }
    (* the text *)
    assert (Forall attr_ok ps) as Aps by (unfold ps; rewrite !Forall_app; auto).
    assert (is_ref n = false -> Forall (fun p => p.1 <> txt_ref /\ p.1 <> txt_ref_content) ps) as Cps.
    { intros Er. rewrite Er in S1. subst p1. unfold ps. cbn [app]. apply Forall_app. split.
      - destruct (referenced n); [destruct S2 as (ds & -> & _)|by rewrite S2]. constructor; [done|constructor].
      - unfold p3. destruct (x_null d); [constructor; [done|constructor]|constructor]. }
    assert (forall closed h, (if x_null d || is_ref n then closed = true
       else xml_handler isprint wrapv buf (x_kind d) = Some h /\ closed = Nat.eqb (first_child n) 0 && Nat.eqb (length h) 0) ->
      forall c lvl, xml_pre isprint wrapv buf js ns c i lvl = Some (c.1 ++ xml_line lvl ++ 60 :: tag_name d ++ attrs ps ++ xend closed h, (i, closed) :: c.2)) as Pre.
    { intros closed h Hc c lvl. unfold xml_pre. rewrite (rd_lu _ _ _ En), (rd_lu _ _ _ Ed). cbn [mbind option_bind]. rewrite E1, E2, E3. cbn [mbind option_bind]. rewrite Ea.
      destruct (x_null d || is_ref n).
      - subst closed. unfold xend. f_equal. f_equal. rewrite <- ?app_assoc. cbn [app]. by rewrite <- ?app_assoc.
      - destruct Hc as [-> ->]. cbn [mbind option_bind]. destruct (Nat.eqb (first_child n) 0 && Nat.eqb (length h) 0); unfold xend; f_equal; f_equal; rewrite <- ?app_assoc; cbn [app]; by rewrite <- ?app_assoc. }
    unfold expandable in X. destruct (is_ref n) eqn:Er.
    - rewrite andb_false_r in X. subst ks. exists n, d, ps, true, []. do 5 (split; [done|]). split; [apply Pre; by rewrite orb_true_r|].
      split; [done|]. split; [rewrite Er; apply andb_false_r|].
      intros w. eapply Rd; [reflexivity| |by rewrite orb_true_r]. right. by right.
    - rewrite orb_false_r in *. rewrite andb_true_r in X. destruct (x_null d) eqn:Enl.
      + rewrite K in X. cbn in X. subst ks. exists n, d, ps, true, []. do 5 (split; [done|]). split; [by apply Pre|]. split; [done|]. split; [by rewrite K|].
        intros w. eapply Rd; [reflexivity| |done]. right. by right.
      + destruct K as [Kk Kc]. destruct (xhandler_ok (x_kind d) Kk) as (h & s & v & Eh & Nh & Lh & Hs & Hn & Ev & Hv & Sy).
        exists n, d, ps, (Nat.eqb (first_child n) 0 && Nat.eqb (length h) 0), h. do 5 (split; [done|]). split; [by apply Pre|].
        split; [intros _; by apply Cps|]. destruct (Nat.eqb_spec (first_child n) 0) as [Fc|Fc]; cbn [negb andb] in *.
        * subst ks. split; [done|]. destruct (Nat.eqb_spec (length h) 0) as [Lz|Lz].
          -- destruct h; [|done]. intros w. eapply Rd; [reflexivity|right; by right|]. rewrite <- (Hs eq_refl). done.
          -- split; [done|]. split; [done|]. split; [by eexists|]. intros w. by eapply Rd; [exact Ev| |].
        * destruct X as (X1 & X2 & X3). rewrite Er. destruct ks as [|k ks]; [done|]. split; [done|]. split; [done|]. specialize (Kc Fc). split; [by apply Hn|]. split; [done|].
          intros c w B. destruct (xvalue_plain c) as (vc & Evc & Hvc); [eapply Forall_impl; [exact B|]; cbn; intros; lia|]. eapply Rd; [exact Evc|exact Hvc|].
          rewrite Kc. cbn [says]. eapply Forall_impl; [exact B|]. cbn. intros; lia.
  Qed.

  Notation pays := (dinfos (fun a : xpay => a)).
  Definition xrenames (t : tree) (d : doc xpay) : Prop := forall f k, (forall j i, nodes t !! j = Some i -> f i = (k + j)%nat) -> rename f t = number_doc k d.

  (** The text of a tree, whatever its level: what the visitor appends, and what the
      lexer and the parser make of it, depending on the white space that follows. *)
  Definition xtree_goal (t : tree) : Prop := forall lvl, exists body extra,
    nz (60 :: body) /\ Forall (fun e => e.1 ∈ nodes t) extra /\
    (forall base fl k, apply_events print (events lvl t) ns (base, fl) k = k ns (base ++ xml_line lvl ++ 60 :: body, extra ++ fl)) /\
    forall w, blanks w -> exists d, good d /\ calm d /\ Forall2 xreads (nodes t) (pays d) /\ xrenames t d /\ dsize d = length (nodes t) /\
      forall rest ts, tagged rest -> xlexes rest ts -> xlexes (60 :: body ++ w ++ rest) (xtoks d ++ ts).

  Lemma xkids_ok ks : ks <> [] -> Forall xtree_goal ks -> forall lvl, exists body extra,
    nz (60 :: body) /\ Forall (fun e => e.1 ∈ concat (map nodes ks)) extra /\
    (forall base fl k, apply_events print (concat (map (events lvl) ks)) ns (base, fl) k = k ns (base ++ xml_line lvl ++ 60 :: body, extra ++ fl)) /\
    forall w, blanks w -> exists ds, length ds = length ks /\ Forall good ds /\ Forall calm ds /\ Forall2 xreads (concat (map nodes ks)) (concat (map pays ds)) /\
      dsizes ds = length (concat (map nodes ks)) /\
      (forall f k, (forall j i, concat (map nodes ks) !! j = Some i -> f i = (k + j)%nat) -> map (rename f) ks = number_docs k ds) /\
      forall rest ts, tagged rest -> xlexes rest ts -> xlexes (60 :: body ++ w ++ rest) (concat (map xtoks ds) ++ ts).
  Proof.
    intros Ne G lvl. induction G as [|k ks Hk Hks IH]; [done|]. destruct (Hk lvl) as (b1 & x1 & N1 & X1 & E1 & D1). destruct ks as [|k2 ks].
    - exists b1, x1. split; [done|]. split; [cbn [map concat]; by rewrite app_nil_r|]. split; [intros; cbn [map concat]; rewrite app_nil_r; apply E1|].
      intros w B. destruct (D1 w B) as (d & Gd & Cd & R & Fr & Ds & L). exists [d]. split; [done|]. split; [by constructor|]. split; [by constructor|].
      split; [cbn [map concat]; by rewrite !app_nil_r|]. split; [cbn [map concat]; rewrite dsizes_one, app_nil_r; lia|]. split.
      { intros f kk Hf. cbn [map number_docs]. f_equal. apply Fr. intros j x E. apply Hf. cbn [map concat]. by rewrite app_nil_r. }
      intros rest ts T Hr. cbn [map concat]. rewrite app_nil_r. by apply L.
    - destruct IH as (b2 & x2 & N2 & X2 & E2 & D2); [done|]. exists (b1 ++ xml_line lvl ++ 60 :: b2), (x2 ++ x1). split; [|split; [|split]].
      + change (60 :: b1 ++ xml_line lvl ++ 60 :: b2) with ((60 :: b1) ++ xml_line lvl ++ 60 :: b2). apply nz_app. split; [done|]. apply nz_app. split; [apply blanks_nz, blanks_xline|done].
      + apply Forall_app. split; [eapply Forall_impl; [exact X2|]|eapply Forall_impl; [exact X1|]]; intros e He; cbn [map concat] in *; apply elem_of_app; auto.
      + intros base fl kk. change (concat (map (events lvl) (k :: k2 :: ks))) with (events lvl k ++ concat (map (events lvl) (k2 :: ks))).
        rewrite apply_events_app, E1, E2. f_equal. f_equal; [|by rewrite <- app_assoc]. rewrite <- !app_assoc. cbn [app]. by rewrite <- ?app_assoc.
      + intros w B. destruct (D1 (xml_line lvl) (blanks_xline lvl)) as (d & Gd & Cd & R & Fr & Ds & L), (D2 w B) as (ds & Ln & Gs & Cs & Rs & Dss & Frs & Ls).
        exists (d :: ds). split; [cbn in *; lia|]. split; [by constructor|]. split; [by constructor|]. split; [cbn [map concat]; by apply Forall2_app|].
        split; [cbn [map concat] in *; rewrite dsizes_cons, app_length; lia|]. split.
        * intros f kk Hf. cbn [number_docs]. change (map (rename f) (k :: k2 :: ks)) with (rename f k :: map (rename f) (k2 :: ks)). f_equal.
          -- apply Fr. intros j x E. apply Hf. cbn [map concat]. by apply lookup_app_l_Some.
          -- apply Frs. intros j x E. rewrite Ds. rewrite (Hf (length (nodes k) + j)%nat x); [lia|].
             change (concat (map nodes (k :: k2 :: ks))) with (nodes k ++ concat (map nodes (k2 :: ks))). rewrite lookup_app_r by lia. by replace (_ + j - _)%nat with j by lia.
        * intros rest ts T Hr. pose proof (Ls rest ts T Hr) as L2. cbn [map concat]. rewrite <- !app_assoc. cbn [app]. rewrite <- ?app_assoc. apply (L (60 :: b2 ++ w ++ rest)); done.
  Qed.

  Lemma get_flag_own extra fl i b : Forall (fun e : nat * bool => e.1 <> i) extra -> get_flag (extra ++ (i, b) :: fl) i = b.
  Proof.
    induction 1 as [|[j r] l Hj _ IH]; cbn [app get_flag]; [by rewrite Nat.eqb_refl|]. destruct (Nat.eqb_spec i j) as [->|]; [done|]. exact IH.
  Qed.

  Lemma xtree_ok t : forall par nxt, tree_at ns par nxt t -> NoDup (nodes t) ->
    (forall i, i ∈ nodes t -> i ∈ nodes t0 /\ xnode_ok known wrapv ns js t0 i) -> xtree_goal t.
  Proof.
    induction t as [i ks IH] using tree_ind'. intros par nxt A Nd Ok.
    destruct (Ok i ltac:(by left)) as [I0 Ok0].
    destruct (xpre_ok i par nxt ks A Ok0 I0) as (n & d & ps & closed & h & En & Ed & Id & Kn & Aps & Pre & Cm & Lines & C).
    cbn [nodes] in Nd. apply NoDup_cons in Nd as [Ni Nd].
    assert (Forall prop_ok ps) as Pps by (eapply Forall_impl; [exact Aps|]; intros p Hp; apply Hp).
    assert (known (local_name (tag_name d)) = true) as Kl by (by rewrite ident_local).
    assert (nz (60 :: tag_name d ++ attrs ps)) as Nt by (constructor; [lia|]; apply nz_app; split; [by apply ident_nz|by apply attrs_nz]).
    destruct ks as [|k ks].
    - intros lvl. destruct closed.
      + exists (tag_name d ++ attrs ps ++ [47; 62]), [(i, true)]. split; [|split; [|split]].
        * rewrite app_assoc. change (60 :: (tag_name d ++ attrs ps) ++ [47; 62]) with ((60 :: tag_name d ++ attrs ps) ++ [47; 62]). apply nz_app. split; [done|repeat constructor; lia].
        * constructor; [left|constructor].
        * intros base fl k. cbn [events apply_events map concat app]. unfold visit at 1. unfold xml_print_node at 1. rewrite Pre. cbn [mbind option_bind].
          unfold visit, xml_print_node, xml_post. rewrite (rd_lu _ _ _ En), (rd_lu _ _ _ Ed). cbn [mbind option_bind fst snd get_flag]. rewrite Lines, Nat.eqb_refl. done.
        * intros w B. exists (Doc (XPay (tag_name d) ps (XBEmpty w)) []). split; [|split; [|split; [|split; [|split]]]].
          -- apply doc_all_eq. split; [|constructor]. split; [done|]. split; [done|]. split; [done|]. split; [by apply blanks_isspace|by eexists].
          -- apply doc_all_eq. split; [intros E; by destruct E|constructor].
          -- cbn. constructor; [apply C|constructor].
          -- intros f k Hff. rewrite number_doc_eq. cbn [rename]. f_equal. rewrite (Hff 0%nat i eq_refl). lia.
          -- done.
          -- intros rest ts T Hr. rewrite xtoks_eq. cbn [x_tag x_props x_body btoks app]. rewrite <- !app_assoc. apply xlexes_open; [done|by apply attrs_stop|].
             apply attrs_lex; [done|]. cbn [app]. apply (xlexes_empty w); [by apply blanks_nolt|done|done].
      + destruct C as (Nh & Lh & [v Ev] & C). exists (tag_name d ++ attrs ps ++ 62 :: h ++ [60; 47] ++ tag_name d ++ [62]), [(i, false)]. split; [|split; [|split]].
        * rewrite app_assoc. change (60 :: (tag_name d ++ attrs ps) ++ 62 :: h ++ [60; 47] ++ tag_name d ++ [62]) with ((60 :: tag_name d ++ attrs ps) ++ 62 :: h ++ [60; 47] ++ tag_name d ++ [62]).
          apply nz_app. split; [done|]. constructor; [lia|]. apply nz_app. split; [done|]. apply nz_app. split; [repeat constructor; lia|]. apply nz_app. split; [by apply ident_nz|repeat constructor; lia].
        * constructor; [left|constructor].
        * intros base fl k. cbn [events apply_events map concat app]. unfold visit at 1. unfold xml_print_node at 1. rewrite Pre. cbn [mbind option_bind].
          unfold visit, xml_print_node, xml_post. rewrite (rd_lu _ _ _ En), (rd_lu _ _ _ Ed). cbn [mbind option_bind fst snd get_flag]. rewrite Lines, Nat.eqb_refl. f_equal. f_equal.
          unfold xend. rewrite <- !app_assoc. cbn [app]. by rewrite <- !app_assoc.
        * intros w B. exists (Doc (XPay (tag_name d) ps (XBFull h w)) []). split; [|split; [|split; [|split; [|split]]]].
          -- apply doc_all_eq. split; [|constructor]. split; [done|]. split; [done|]. split; [done|]. split; [by apply blanks_isspace|by exists v].
          -- apply doc_all_eq. split; [intros E; by destruct E|constructor].
          -- cbn. constructor; [apply C|constructor].
          -- intros f k Hff. rewrite number_doc_eq. cbn [rename]. f_equal. rewrite (Hff 0%nat i eq_refl). lia.
          -- done.
          -- intros rest ts T Hr. rewrite xtoks_eq. cbn [x_tag x_props x_body btoks app map concat]. rewrite <- !app_assoc. apply xlexes_open; [done|by apply attrs_stop|].
             apply attrs_lex; [done|]. cbn [app]. rewrite <- !app_assoc. apply xlexes_content; [done|done|]. cbn [app]. rewrite <- app_assoc. apply xlexes_close; [done|done|].
             apply (xlexes_content w); [by apply blanks_nolt|done|done].
    - destruct C as (-> & -> & Tk & C). intros lvl.
      assert (Forall xtree_goal (k :: ks)) as Gk.
      { apply Forall_forall. intros x Hx. rewrite Forall_forall in IH.
        assert (exists nx, tree_at ns i nx x) as [nx Ax].
        { clear -Tk Hx. revert Tk Hx. generalize (k :: ks). intros l. induction l as [|y l IH]; intros Tk Hx; [by apply elem_of_nil in Hx|]. cbn [trees_at] in Tk. destruct Tk as [T1 T2].
          apply elem_of_cons in Hx as [-> |Hx]; [by eexists|by apply IH]. }
        apply (IH x Hx i nx Ax).
        - clear -Hx Nd. revert Hx Nd. generalize (k :: ks). intros l. induction l as [|k0 l IH]; intros Hx Nd; [by apply elem_of_nil in Hx|]. cbn in Nd. apply NoDup_app in Nd as (N1 & _ & N2). apply elem_of_cons in Hx as [-> | Hx]; auto.
        - intros y Hy. apply Ok. cbn [nodes]. right. apply elem_of_list_In, in_concat. exists (nodes x). split; [apply in_map; by apply elem_of_list_In|by apply elem_of_list_In]. }
      destruct (xkids_ok (k :: ks) ltac:(done) Gk (lvl + 1)) as (b & x & Nb & Xb & Eb & Db).
      exists (tag_name d ++ attrs ps ++ 62 :: xml_line (lvl + 1) ++ 60 :: b ++ xml_line lvl ++ [60; 47] ++ tag_name d ++ [62]), (x ++ [(i, false)]). split; [|split; [|split]].
      + rewrite app_assoc. match goal with |- nz (60 :: (tag_name d ++ attrs ps) ++ ?r) => change (60 :: (tag_name d ++ attrs ps) ++ r) with ((60 :: tag_name d ++ attrs ps) ++ r) end.
        apply nz_app. split; [done|]. constructor; [lia|]. apply nz_app. split; [apply blanks_nz, blanks_xline|].
        match goal with |- nz (60 :: b ++ ?r) => change (60 :: b ++ r) with ((60 :: b) ++ r) end. apply nz_app. split; [done|]. apply nz_app. split; [apply blanks_nz, blanks_xline|].
        apply nz_app. split; [repeat constructor; lia|]. apply nz_app. split; [by apply ident_nz|repeat constructor; lia].
      + apply Forall_app. split; [eapply Forall_impl; [exact Xb|]; intros e He; cbn [nodes]; by right|]. constructor; [left|constructor].
      + intros base fl kk. cbn [events apply_events]. unfold visit at 1. unfold xml_print_node at 1. rewrite Pre. cbn [mbind option_bind]. rewrite apply_events_app, Eb. cbn [apply_events].
        unfold visit, xml_print_node, xml_post. rewrite (rd_lu _ _ _ En), (rd_lu _ _ _ Ed). cbn [mbind option_bind fst snd]. rewrite Lines.
        rewrite get_flag_own by (eapply Forall_impl; [exact Xb|]; intros e He E; apply Ni; by rewrite <- E).
        f_equal. f_equal; [|by rewrite <- app_assoc]. unfold xend. rewrite <- !app_assoc. cbn [app]. rewrite <- !app_assoc. cbn [app]. by rewrite <- ?app_assoc.
      + intros w B. destruct (Db (xml_line lvl) (blanks_xline lvl)) as (ds & Ln & Gs & Cs & Rs & Dss & Frs & Ls).
        exists (Doc (XPay (tag_name d) ps (XBFull (xml_line (lvl + 1)) w)) ds). split; [|split; [|split; [|split; [|split]]]].
        * apply doc_all_eq. split; [|done]. split; [done|]. split; [done|]. split; [done|]. split; [by apply blanks_isspace|].
          destruct (xvalue_plain (xml_line (lvl + 1))) as (v & Ev & _); [eapply Forall_impl; [exact (blanks_xline (lvl + 1))|]; cbn; intros; lia|]. by exists v.
        * apply doc_all_eq. split; [|done]. intros _. by apply Cm.
        * cbn [nodes dinfos]. constructor; [apply C, blanks_xline|done].
        * intros f kk Hff. rewrite number_doc_eq. cbn [rename]. f_equal; [rewrite (Hff 0%nat i eq_refl); lia|]. apply Frs. intros j y E. rewrite (Hff (S j) y); [lia|done].
        * cbn [nodes length]. rewrite <- Dss. done.
        * intros rest ts T Hr. rewrite xtoks_eq. cbn [x_tag x_props x_body btoks app]. rewrite <- !app_assoc. apply xlexes_open; [done|by apply attrs_stop|].
          apply attrs_lex; [done|]. cbn [app]. rewrite <- !app_assoc. cbn [app]. rewrite <- ?app_assoc. apply xlexes_content; [apply blanks_nolt, blanks_xline|done|].
          apply Ls; [done|]. cbn [app]. rewrite <- app_assoc. apply xlexes_close; [done|done|]. apply (xlexes_content w); [by apply blanks_nolt|done|done].
  Qed.
End Save.
