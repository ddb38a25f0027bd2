(** The events mr_yaml_save gives to the emitter are those of a document. *)
From Verif Require Import Base Ptrs NumStr NumStrProof Enum EnumProof Quote QuoteProof Parse ParseProof DfsProof Json LexProof JsonLex JsonSpec JsonSave Cinit Xml Yaml YamlSpec YamlParse.
Local Open Scope Z_scope.

(** ** Numbers in anchors *)
Lemma run_all p l : Forall (fun c => p c = true) l -> run p l = length l.
Proof. induction 1 as [|c l Hc _ IH]; [done|]. cbn. by rewrite Hc, IH. Qed.

Lemma decimal_fold ds : Forall dig ds -> forall a, foldl (fun v c => v * 10 + (c - 48)) a ds = foldl (fun a c => a * 10 + default 0 (digit_of c)) a ds.
Proof.
  induction 1 as [|c l Hc _ IH]; intros a; [done|]. cbn [foldl]. rewrite IH. f_equal. f_equal. unfold dig in Hc.
  assert (digit_of c = Some (c - 48)) as ->; [|done]. unfold digit_of. repeat (destruct (decide _); try lia); try done; lia.
Qed.

Lemma scan_own prefix ds v : plain ds -> numeral_value 10 ds = Z.of_nat v -> Z.of_nat v < 2 ^ 32 -> scan_template prefix (prefix ++ ds) = Some v.
Proof.
  intros (Ne & F & _) V L. unfold scan_template. rewrite take_app, decide_True by done. rewrite drop_app. cbv zeta.
  destruct ds as [|c ds]; [done|]. pose proof F as F0. apply Forall_cons in F0 as [Hc _]. unfold dig in Hc.
  assert (run isspace (c :: ds) = 0%nat) as ->.
  { cbn [run]. unfold isspace. replace ((c =? 32) || ((9 <=? c) && (c <=? 13))) with false; [done|]. symmetry. lia. }
  cbn [drop]. assert (m_sign (c :: ds) = 0%nat) as ->.
  { cbn [m_sign]. replace ((c =? 43) || (c =? 45)) with false; [done|]. symmetry. lia. }
  cbn [drop]. rewrite run_all.
  2:{ eapply Forall_impl; [exact F|]. unfold dig. cbn. intros x Hx. lia. }
  rewrite take_ge by done.
  assert (match c :: ds with 45 :: _ => true | _ => false end = false) as ->.
  { destruct (decide (c = 45)); [lia|]. destruct c as [|[]|]; try done. repeat (match goal with p : positive |- _ => destruct p; try done end). }
  rewrite decimal_fold by done. change (foldl _ 0 (c :: ds)) with (numeral_value 10 (c :: ds)). rewrite V.
  destruct (Z.ltb_spec (Z.of_nat v) (2 ^ 64)); [|lia]. rewrite Z.mod_small by lia. by rewrite Nat2Z.id.
Qed.
Lemma scan_other ds : scan_template txt_anchor_content (txt_anchor ++ ds) = None.
Proof. unfold scan_template. rewrite decide_False; [done|]. cbn. intros [=]. Qed.

Lemma alias_null n r : read_alias txt_isnull n r = (n, YRead (r_val r) true (r_unnamed r) (r_cref r) (r_name r)).
Proof. reflexivity. Qed.

(** ** Well-formed documents *)
Definition ystrict (known : list Z -> bool) (a : ypay) (ks : list ydoc) : Prop :=
  match p_body a with
  | BScalar _ _ | BAlias _ => ks = []
  | BMap _ => Forall (fun d => exists nm, p_key (pay d) = Some (None, nm) /\ known nm = true) ks
  | BSeq _ => Forall (fun d => p_key (pay d) = None) ks
  end.
Lemma strict_good known t : doc_all (ystrict known) t -> doc_all (ygood known) t.
Proof.
  induction t as [a ks IH] using doc_ind'. rewrite !doc_all_eq. intros [S Ss]. split.
  - unfold ystrict in S. unfold ygood. destruct (p_body a); try done; (eapply Forall_impl; [exact S|]); cbn; unfold yfits.
    + intros d (nm & -> & K). done.
    + intros d ->. by left.
  - rewrite Forall_forall in *. auto.
Qed.

Definition body_evs (t : ydoc) : list yev :=
  match t with Doc a ks =>
    match p_body a with
    | BScalar an v => [EScalar an v]
    | BMap an => EMap an :: concat (map devs ks) ++ [EMapEnd]
    | BSeq an => ESeq an :: concat (map devs ks) ++ [ESeqEnd]
    | BAlias al => [EAlias al]
    end end.
Lemma devs_body t : devs t = key_evs (pay t) ++ body_evs t.
Proof. by destruct t. Qed.
Lemma strict_wf known t : doc_all (ystrict known) t -> wf_node (body_evs t).
Proof.
  induction t as [a ks IH] using doc_ind'. rewrite doc_all_eq. intros [S Ss]. unfold ystrict in S. cbn [body_evs].
  destruct (p_body a) as [an v|an|an|al]; [apply W_scalar|apply W_map|apply W_seq|apply W_alias].
  - revert S Ss. induction IH as [|t ts Ht _ IH]; intros S Ss; [constructor|]. apply Forall_cons in S as [(nm & K & _) S], Ss as [St Ss].
    cbn [map concat]. rewrite devs_body. unfold key_evs. rewrite K. rewrite <- app_assoc. apply P_cons; [apply W_scalar|by apply Ht|by apply IH].
  - revert S Ss. induction IH as [|t ts Ht _ IH]; intros S Ss; [constructor|]. apply Forall_cons in S as [K S], Ss as [St Ss].
    cbn [map concat]. rewrite devs_body. unfold key_evs. rewrite K. apply N_cons; [by apply Ht|by apply IH].
Qed.

Section Save.
  Context (known utf8 : list Z -> bool) (wrapv : bool) (buf : list Z) (ns : list node) (js : list yinfo).
  Context (Hbuf : length buf = print_buffer) (Hutf : forall s, Forall (fun c => 0 < c < 128) s -> utf8 s = true).
  Notation print := (yaml_print_node utf8 wrapv buf js).

  (** What the document has for a node. *)
  Definition anchor_ok (n : node) (an : option (list Z)) : Prop :=
    if referenced n then exists ds, an = Some (txt_anchor ++ ds) /\ plain ds /\ numeral_value 10 ds = Z.of_nat (pub_idx n) else an = None.
  Definition pay_node (n : node) (d : yinfo) (a : ypay) : Prop :=
    p_key a = (if in_map js n then Some (None, label d) else None) /\
    (if is_ref n then exists m ds, ns !! first_child n = Some m /\ p_body a = BAlias ((if y_cref d then txt_anchor_content else txt_anchor) ++ ds) /\
        plain ds /\ numeral_value 10 ds = Z.of_nat (pub_idx m)
     else if y_null d then p_body a = BAlias txt_isnull
     else exists an, anchor_ok n an /\
       if has_members (y_kind d) then p_body a = BMap an else if has_elements (y_kind d) then p_body a = BSeq an
       else exists s, own_text (y_kind d) s /\ p_body a = BScalar an s).
  Definition pay_ok (i : nat) (a : ypay) : Prop := exists n d, ns !! i = Some n /\ js !! i = Some d /\ pay_node n d a.

  Context (t0 : tree) (Hpub : forall i m, i ∈ nodes t0 -> ns !! i = Some m -> Z.of_nat (pub_idx m) < 2 ^ 32).
  Context (Hin : forall i, i ∈ nodes t0 -> exists m, ns !! i = Some m).

  Lemma anchor_print n : Z.of_nat (pub_idx n) < 2 ^ 32 -> exists an, get_anchor wrapv buf n = Some an /\ anchor_ok n an.
  Proof.
    intros L. unfold get_anchor, anchor_ok, anchor_text. destruct (referenced n); [|by eexists].
    destruct (pub_number known (fun _ => false) wrapv buf ns Hbuf eq_refl t0 Hpub n L) as (ds & -> & P & V). eexists. split; [done|]. by exists ds.
  Qed.

  Lemma hex_digit d : 0 <= d < 16 -> digit_of (hex_char d) = Some d.
  Proof.
    intros H. unfold hex_char, digit_of. destruct (Z.ltb_spec d 10); repeat (destruct (decide _); try lia); try (f_equal; lia).
  Qed.

  Lemma text_print k : ykind_ok utf8 wrapv k -> has_members k = false -> has_elements k = false -> k <> YVoid ->
    exists s, scalar_text wrapv buf k = Some s /\ own_text k s /\ utf8 s = true.
  Proof.
    destruct k; try done; cbn; intros K _ _ _.
    - eexists. split; [done|]. destruct b; (split; [done|]); apply Hutf; repeat constructor; lia.
    - destruct K as [Nt W]. destruct (print_int_ok known (fun _ => false) wrapv buf Hbuf eq_refl t data Nt W) as (neg & ds & -> & Pl & V).
      eexists. split; [done|]. split.
      + exists neg, ds. split; [by destruct neg|]. split; [exact Pl|done].
      + apply Hutf. apply Forall_app. split; [destruct neg; repeat constructor; lia|]. eapply Forall_impl; [apply Pl|]. unfold dig. cbn. intros; lia.
    - destruct K as [Ne U]. destruct txt; [done|]. by eexists.
    - by eexists.
    - eexists. split; [done|]. unfold char_text. destruct ((32 <=? c) && (c <? 128)) eqn:B.
      + split; [done|]. apply Hutf. repeat constructor; lia.
      + assert (0 <= c / 16 < 16) by (split; [apply Z.div_pos; lia|apply Z.div_lt_upper_bound; lia]).
        pose proof (Z.mod_pos_bound c 16 ltac:(lia)) as Hm. split.
        * exists [hex_char (c / 16); hex_char (c mod 16)]. split; [done|]. split; [done|]. split.
          -- constructor; [|constructor; [|constructor]]; eexists; (split; [by apply hex_digit|lia]).
          -- unfold numeral_value. cbn [foldl]. rewrite !hex_digit by done. unfold default, id. pose proof (Z.div_mod c 16 ltac:(lia)). lia.
        * apply Hutf. pose proof (hex_range (c / 16) ltac:(lia)). pose proof (hex_range (c mod 16) Hm). repeat constructor; lia.
    - by eexists.
  Qed.

  (** The events before and after the children. *)
  Definition close_evs (b : ybody) : list yev := match b with BMap _ => [EMapEnd] | BSeq _ => [ESeqEnd] | _ => [] end.
  Definition open_ev (b : ybody) : yev := match b with BScalar an v => EScalar an v | BMap an => EMap an | BSeq an => ESeq an | BAlias al => EAlias al end.

  Lemma emit_ok n d u b0 : negb u = in_map js n -> (in_map js n = true -> utf8 (label d) = true) -> (is_ref n = true -> first_child n ∈ nodes t0) ->
    exists b, emit_field utf8 wrapv buf ns n d u (open_ev b0) = Some (true, key_evs (YPay (if in_map js n then Some (None, label d) else None) b) ++ [open_ev b]) /\
      if is_ref n then exists m ds, ns !! first_child n = Some m /\ b = BAlias ((if y_cref d then txt_anchor_content else txt_anchor) ++ ds) /\
        plain ds /\ numeral_value 10 ds = Z.of_nat (pub_idx m)
      else if y_null d then b = BAlias txt_isnull else b = b0.
  Proof.
    intros U Ul Rf. unfold emit_field. change (default txt_entity (y_name d)) with (label d).
    assert (negb u && negb (utf8 (label d)) = false) as ->.
    { rewrite U. destruct (in_map js n); [|done]. by rewrite Ul. }
    assert (forall b, (if u then [] else [EScalar None (label d)]) ++ [open_ev b] = key_evs (YPay (if in_map js n then Some (None, label d) else None) b) ++ [open_ev b]) as K.
    { intros b. rewrite <- U. by destruct u. }
    destruct (is_ref n).
    - specialize (Rf eq_refl). destruct (Hin _ Rf) as [m Em].
      assert ((first_child n <? length ns)%nat = true) as -> by (apply Nat.ltb_lt; by eapply lookup_lt_Some).
      cbn [andb]. rewrite (rd_lu _ _ _ Em). cbn [mbind option_bind].
      destruct (pub_number known (fun _ => false) wrapv buf ns Hbuf eq_refl t0 Hpub m (Hpub _ _ Rf Em)) as (ds & Pn & Pl & V).
      unfold anchor_text. rewrite Pn. cbn [mbind option_bind].
      exists (BAlias ((if y_cref d then txt_anchor_content else txt_anchor) ++ ds)). rewrite <- K. split; [done|]. by exists m, ds.
    - cbn [andb]. destruct (y_null d).
      + exists (BAlias txt_isnull). by rewrite <- K.
      + exists b0. by rewrite <- K.
  Qed.

  Lemma pre_ok i par nxt ks : tree_at ns par nxt (T i ks) -> i ∈ nodes t0 -> ynode_ok known utf8 wrapv ns js t0 i -> void js i = false ->
    (par = 0%nat \/ exists pd, js !! par = Some pd) ->
    exists n d a, ns !! i = Some n /\ js !! i = Some d /\ pay_node n d a /\
      yaml_pre utf8 wrapv buf js ns i = Some (true, key_evs a ++ [open_ev (p_body a)]) /\
      yaml_post js ns i = Some (true, close_evs (p_body a)) /\
      (is_open (p_body a) = false -> ks = []) /\
      (is_open (p_body a) = true -> has_members (y_kind d) = match p_body a with BMap _ => true | _ => false end) /\
      (in_map js n = true -> known (label d) = true).
  Proof.
    intros A It (n & d & En & Ed & Ok) V Hpar. rewrite V in Ok. destruct Ok as (Nm & Kn & Kk & Br & Rf).
    rewrite tree_at_eq in A. destruct A as (n' & En' & Zi & Pn & Nx & X). rewrite En in En'. injection En' as <-.
    assert (y_kind d <> YVoid) as Nv by (intros E; unfold void in V; rewrite Ed, E in V; done).
    destruct (anchor_print n (Hpub i n It En)) as (an & Ean & Aok).
    assert (in_map js n = true -> utf8 (label d) = true) as Ul by (intros H; by apply Kn).
    assert (is_ref n = true -> first_child n ∈ nodes t0) as Rf' by (intros H; by rewrite H in Rf).
    assert (is_ref n = false -> first_child n = 0%nat -> ks = []) as Leaf.
    { intros H1 H2. unfold expandable in X. by rewrite H1, H2 in X. }
    assert (is_ref n = true -> ks = []) as RefLeaf.
    { intros H1. unfold expandable in X. by rewrite H1, andb_false_r in X. }
    (* what remains when the events are known *)
    assert (forall b0 u b, negb u = in_map js n ->
      emit_field utf8 wrapv buf ns n d u (open_ev b0) = Some (true, key_evs (YPay (if in_map js n then Some (None, label d) else None) b) ++ [open_ev b]) ->
      yaml_pre utf8 wrapv buf js ns i = emit_field utf8 wrapv buf ns n d u (open_ev b0) ->
      (if is_ref n then exists m ds, ns !! first_child n = Some m /\ b = BAlias ((if y_cref d then txt_anchor_content else txt_anchor) ++ ds) /\
        plain ds /\ numeral_value 10 ds = Z.of_nat (pub_idx m)
      else if y_null d then b = BAlias txt_isnull else b = b0) ->
      (is_ref n || y_null d = false -> if has_members (y_kind d) then b0 = BMap an else if has_elements (y_kind d) then b0 = BSeq an
       else exists s, own_text (y_kind d) s /\ b0 = BScalar an s) ->
      exists n d a, Some n = Some n /\ ns !! i = Some n /\ js !! i = Some d /\ pay_node n d a /\
      yaml_pre utf8 wrapv buf js ns i = Some (true, key_evs a ++ [open_ev (p_body a)]) /\
      yaml_post js ns i = Some (true, close_evs (p_body a)) /\
      (is_open (p_body a) = false -> ks = []) /\
      (is_open (p_body a) = true -> has_members (y_kind d) = match p_body a with BMap _ => true | _ => false end) /\
      (in_map js n = true -> known (label d) = true)) as Fin.
    { intros b0 u b U Ee Ep Hb Hb0. exists n, d, (YPay (if in_map js n then Some (None, label d) else None) b).
      split; [done|]. split; [done|]. split; [done|]. cbn [p_body]. 
      split; [|split; [|split; [|split; [|split]]]].
      - split; [done|]. cbn [p_body]. destruct (is_ref n); [done|]. destruct (y_null d); [done|]. subst b. exists an. split; [done|]. by apply Hb0.
      - by rewrite Ep, Ee.
      - unfold yaml_post. rewrite (rd_lu _ _ _ En), (rd_lu _ _ _ Ed). cbn [mbind option_bind].
        destruct (is_ref n) eqn:Er.
        + destruct Hb as (m & ds & _ & -> & _). rewrite orb_true_r. destruct (y_kind d); try done; cbn in Br; by destruct (Br eq_refl).
        + destruct (y_null d) eqn:Eu.
          * subst b. destruct (y_kind d); try done; cbn in Br; by destruct (Br eq_refl).
          * subst b. specialize (Hb0 eq_refl). destruct (y_kind d); cbn in Hb0; try (destruct Hb0 as (? & _ & ->)); subst; done.
      - intros O. destruct (is_ref n) eqn:Er; [by apply RefLeaf|]. apply Leaf; [done|].
        destruct (y_null d) eqn:Eu.
        + destruct Rf as [?|[Bb|[_ ?]]]; [done| |done]. by destruct (Br Bb).
        + subst b. specialize (Hb0 eq_refl). destruct Rf as [?|[Bb|[Ek _]]]; [done| |].
          * unfold brackets in Bb. destruct (has_members (y_kind d)); [by subst b0|]. destruct (y_kind d); try done. cbn in Hb0. by subst b0.
          * rewrite Ek in Hb0. cbn in Hb0. by subst b0.
      - intros O. destruct (is_ref n); [by destruct Hb as (m & ds & _ & -> & _)|]. destruct (y_null d); [by subst b|]. subst b. specialize (Hb0 eq_refl).
        destruct (has_members (y_kind d)); [by subst b0|]. destruct (has_elements (y_kind d)); [by subst b0|]. by destruct Hb0 as (? & _ & ->).
      - intros H. by apply Kn. }
    assert (exists b0 u, negb u = in_map js n /\ yaml_pre utf8 wrapv buf js ns i = emit_field utf8 wrapv buf ns n d u (open_ev b0) /\
      (is_ref n || y_null d = false -> if has_members (y_kind d) then b0 = BMap an else if has_elements (y_kind d) then b0 = BSeq an
       else exists s, own_text (y_kind d) s /\ b0 = BScalar an s)) as (b0 & u & U & Ep & Hb0).
    { unfold yaml_pre. rewrite (rd_lu _ _ _ En), (rd_lu _ _ _ Ed). cbn [mbind option_bind]. rewrite <- Nm. unfold named.
      assert (has_members (y_kind d) = false -> has_elements (y_kind d) = false -> exists b0 u, negb u = negb (y_unnamed d) /\
        match scalar_text wrapv buf (y_kind d) with Some v => emit_string utf8 wrapv buf ns n d (y_unnamed d) v | None => Some (false, []) end =
          emit_field utf8 wrapv buf ns n d u (open_ev b0) /\ (is_ref n || y_null d = false -> exists s, own_text (y_kind d) s /\ b0 = BScalar an s)) as Sc.
      { intros H1 H2. destruct (text_print (y_kind d) Kk H1 H2 Nv) as (s & -> & O & Us). exists (BScalar an s), (y_unnamed d).
        split; [done|]. unfold emit_string. rewrite Ean. cbn [mbind option_bind]. rewrite Us. split; [done|]. intros _. by exists s. }
      destruct (y_kind d) eqn:Ek; try done; try (by apply Sc).
      - exists (BMap an), (y_unnamed d). split; [done|]. unfold pre_struct. by rewrite Ean.
      - exists (BMap an), (y_unnamed d). split; [done|]. unfold pre_struct. by rewrite Ean.
      - exists (BMap an), false. split; [done|]. unfold pre_struct. by rewrite Ean.
      - exists (BSeq an), (y_unnamed d). split; [done|]. unfold pre_array. by rewrite Ean.
      - assert (exists u, negb u = match parent_kind js n with Some (YUnion true) => true | _ => negb (y_unnamed d) end /\
          (if Nat.eqb (parent n) 0 then Some (y_unnamed d) else pd ← rd js (parent n); Some (match y_kind pd with YUnion true => false | _ => y_unnamed d end)) = Some u) as (u & U & Eu).
        { unfold parent_kind. rewrite Pn. destruct par as [|par]; [by exists (y_unnamed d)|]. cbn [Nat.eqb].
          destruct Hpar as [?|[pd Epd]]; [done|]. rewrite Epd, (rd_lu _ _ _ Epd). cbn [mbind option_bind fmap option_fmap option_map].
          eexists. split; [|done]. destruct (y_kind pd) as [| | | | | | | |[]| | |]; done. }
        rewrite Eu. cbn [mbind option_bind]. rewrite orb_comm. destruct (is_ref n || y_null d) eqn:B.
        + exists (BScalar an []), u. split; [done|]. split; [|done]. unfold emit_string. rewrite Ean. cbn [mbind option_bind]. by rewrite Hutf by constructor.
        + exists (BSeq an), u. split; [done|]. split; [|done]. unfold pre_array. by rewrite Ean. }
    destruct (emit_ok n d u b0 U Ul Rf') as (b & Ee & Hb).
    destruct (Fin b0 u b U Ee Ep Hb Hb0) as (n1 & d1 & a & _ & R). by exists n1, d1, a.
  Qed.

  (** What the saver makes of a list of trees. *)
  Definition forest_goal (b : bool) (ts : list tree) (evs : Z -> list event) : Prop :=
    exists ds, Forall (doc_all (ystrict known)) ds /\
      Forall (fun d => match p_key (pay d) with Some (an, nm) => b = true /\ an = None /\ known nm = true | None => b = false end) ds /\
      length ds = length (concat (map (kept js) ts)) /\
      Forall2 pay_ok (concat (map nodes (concat (map (kept js) ts)))) (concat (map (dinfos id) ds)) /\
      dsizes ds = length (concat (map nodes (concat (map (kept js) ts)))) /\
      (forall f k, (forall j i, concat (map nodes (concat (map (kept js) ts))) !! j = Some i -> f i = (k + j)%nat) ->
         map (rename f) (concat (map (kept js) ts)) = number_docs k ds) /\
      forall lvl c k, apply_events print (evs lvl) ns c k = k ns (c ++ concat (map devs ds)).

  Lemma forest_nil b : forest_goal b [] (fun _ => []).
  Proof. exists []. do 4 (split; [done || constructor|]). split; [done|]. split; [done|]. intros. cbn. by rewrite app_nil_r. Qed.
  Lemma forest_app b t ts e es : forest_goal b [t] e -> forest_goal b ts es -> forest_goal b (t :: ts) (fun l => e l ++ es l).
  Proof.
    intros (d1 & A1 & B1 & L1 & C1 & D1 & E1 & F1) (d2 & A2 & B2 & L2 & C2 & D2 & E2 & F2). cbn [map concat] in *. rewrite app_nil_r in *.
    exists (d1 ++ d2). cbn [map concat]. split; [by apply Forall_app|]. split; [by apply Forall_app|]. split; [rewrite !app_length; lia|].
    split; [rewrite !map_app, !concat_app; by apply Forall2_app|]. split; [rewrite dsizes_app, map_app, concat_app, app_length; lia|]. split.
    - intros f k H. rewrite map_app.

      assert (number_docs k (d1 ++ d2) = number_docs k d1 ++ number_docs (k + dsizes d1) d2) as ->.
      { clear. revert k. induction d1 as [|d d1 IH]; intros k; cbn [app number_docs]; [by rewrite Nat.add_0_r|].
        rewrite IH, dsizes_cons, Nat.add_assoc. done. }
      rewrite map_app, concat_app in H. f_equal.
      + apply E1. intros j i Ej. apply H. by apply lookup_app_l_Some.
      + apply E2. intros j i Ej. rewrite D1. rewrite (H (length (concat (map nodes (kept js t))) + j)%nat i); [lia|]. rewrite lookup_app_r by lia.
        by replace (_ + j - _)%nat with j by lia.
    - intros lvl c k. rewrite apply_events_app, F1, F2, map_app, concat_app, app_assoc. done.
  Qed.

  Lemma forest_tree t : forall par nxt, tree_at ns par nxt t -> par = 0%nat \/ (exists pd, js !! par = Some pd) ->
    (forall i, i ∈ nodes t -> i ∈ nodes t0 /\ ynode_ok known utf8 wrapv ns js t0 i) ->
    forest_goal (match ns !! root t with Some n => in_map js n | None => false end) [t] (fun l => events l t).
  Proof.
    induction t as [i ks IH] using tree_ind'. intros par nxt A Hp Ok. cbn [root].
    destruct (Ok i ltac:(by left)) as [It Oi].
    destruct (void js i) eqn:V.
    - (* nothing is printed *)
      destruct Oi as (n & d & En & Ed & Oi). rewrite V in Oi.
      assert (ks = []) as ->.
      { rewrite tree_at_eq in A. destruct A as (n' & En' & _ & _ & _ & X). rewrite En in En'. injection En' as <-.
        unfold expandable in X. destruct Oi as [Oi|Oi]; rewrite Oi in X; [by rewrite andb_false_r in X|done]. }
      assert (y_kind d = YVoid) as Ek by (unfold void in V; rewrite Ed in V; by destruct (y_kind d)).
      exists []. cbn [map concat kept]. rewrite V. cbn [app map concat]. do 4 (split; [done || constructor|]). split; [done|]. split; [done|].
      intros lvl c k. cbn [events map concat app apply_events].
      unfold visit, yaml_print_node, yaml_pre, yaml_post. rewrite (rd_lu _ _ _ En), (rd_lu _ _ _ Ed). cbn [mbind option_bind]. rewrite Ek.
      cbn [mbind option_bind fst snd]. rewrite (rd_lu _ _ _ En). cbn [mbind option_bind fst snd]. by rewrite !app_nil_r.
    - destruct (pre_ok i par nxt ks A It Oi V Hp) as (n & d & a & En & Ed & Pa & Pre & Post & Leaf & Mem & Kn).
      rewrite En. rewrite tree_at_eq in A. destruct A as (n' & En' & Zi & Pn & _ & X). rewrite En in En'. injection En' as <-.
      assert (trees_at ns i ks) as Tk by (destruct (expandable n); [apply X|by subst ks]).
      assert (forest_goal (has_members (y_kind d)) ks (fun l => concat (map (events l) ks))) as (ds & G & N & L & R & Z & F & E).
      { clear X Pre Post Leaf. revert Tk IH Ok. induction ks as [|k ks IHk]; intros Tk IH Ok; [apply forest_nil|].
        cbn [trees_at] in Tk. destruct Tk as [A As]. apply Forall_cons in IH as [Ik IH].
        apply (forest_app (has_members (y_kind d)) k ks (fun l => events l k)).
        - destruct (tree_at_root _ _ _ _ A) as (_ & nk & Enk & Pk & _).
          specialize (Ik i (hd_idx ks) A ltac:(right; by exists d)). rewrite Enk in Ik.
          assert (in_map js nk = has_members (y_kind d)) as <-.
          { unfold in_map, parent_kind. rewrite Pk. destruct i; [done|]. by rewrite Ed. }
          apply Ik. intros x Hx. apply Ok. cbn [nodes map concat]. right. apply elem_of_app. by left.
        - apply IHk; [done|done|]. intros x Hx. apply Ok. cbn [nodes map concat] in Hx |- *. apply elem_of_cons in Hx as [-> | Hx]; [by left|].
          right. apply elem_of_app. by right. }
      exists [Doc a ds].
      assert (ystrict known a ds) as Sa.
      { unfold ystrict. destruct (p_body a) as [an v|an|an|al] eqn:Eb; cbn in Leaf, Mem.
        - rewrite (Leaf eq_refl) in L. by destruct ds.
        - rewrite (Mem eq_refl) in N. eapply Forall_impl; [exact N|]. cbn. intros x Hx. destruct (p_key (pay x)) as [[an' nm]|]; [|done]. destruct Hx as (_ & -> & ?). by exists nm.
        - rewrite (Mem eq_refl) in N. eapply Forall_impl; [exact N|]. cbn. intros x Hx. destruct (p_key (pay x)) as [[an' nm]|]; [|done]. by destruct Hx.
        - rewrite (Leaf eq_refl) in L. by destruct ds. }
      split; [constructor; [apply doc_all_eq; by split|constructor]|]. split.
      { constructor; [|constructor]. cbn [pay]. destruct Pa as [-> _]. destruct (in_map js n) eqn:Im; [|done]. split; [done|]. split; [done|]. by apply Kn. }
      cbn [map concat kept]. rewrite V. cbn [app map concat]. rewrite !app_nil_r.
      split; [done|]. split; [cbn [nodes dinfos id]; constructor; [|exact R]; by exists n, d|].
      split; [cbn [nodes length]; rewrite dsizes_one; cbn; by rewrite <- Z|]. split.
      { intros f k H. cbn [number_docs map rename]. rewrite number_doc_eq. f_equal. f_equal.
        - rewrite (H 0%nat i eq_refl). lia.
        - apply F. intros j x Ej. rewrite (H (S j) x); [lia|done]. }
      intros lvl c k. cbn [events apply_events]. unfold visit at 1. unfold yaml_print_node at 1. rewrite Pre. cbn [mbind option_bind fst snd].
      rewrite apply_events_app, E. cbn [apply_events]. unfold visit, yaml_print_node. rewrite Post. cbn [mbind option_bind fst snd]. f_equal.
      rewrite <- !app_assoc. rewrite devs_eq. unfold ystrict in Sa. f_equal. f_equal.
      destruct (p_body a); cbn [open_ev close_evs app] in *; try (subst ds); done.
  Qed.
End Save.
