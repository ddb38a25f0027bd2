(** The XML1 lexer on the texts mr_xml1_save prints. *)
From Verif Require Import Base Ptrs NumStr NumStrProof Enum Quote Parse Json LexProof JsonLex JsonSpec Value Cinit CinitSpec CinitLex Scm ScmLex Xml XmlSpec.
Local Open Scope Z_scope.

Notation xlexes := (lexes xml_rules).

(** The text goes on with a tag, or ends. *)
Definition tagged (rest : list Z) : Prop := match rest with [] => True | c :: _ => c = 60 end.
Definition nolt (w : list Z) : Prop := Forall (fun c => c <> 60) w.

Lemma blanks_nolt w : blanks w -> nolt w.
Proof. intros B. eapply Forall_impl; [exact B|]. cbn. intros; lia. Qed.

Lemma m_nolt_ok w rest : nolt w -> tagged rest -> m_nolt (w ++ rest) = Some (length w).
Proof.
  intros N T. unfold m_nolt. rewrite (run_app _ w rest); [done| |].
  - eapply Forall_impl; [exact N|]. cbn. intros c Hc. by rewrite (proj2 (Z.eqb_neq c 60)).
  - destruct rest; [done|]. by rewrite T.
Qed.

(** An identifier, followed by something that does not go on with it. *)
Definition xstop (rest : list Z) : Prop := match rest with c :: _ => isident c = false /\ c <> 58 | [] => True end.
Lemma m_xid_ok nm rest : identifier nm -> xstop rest -> m_xid (nm ++ rest) = Some (length nm).
Proof.
  intros I St. unfold m_xid. rewrite m_id_ok; [|done|destruct rest; [done|by destruct St]]. cbn [mbind option_bind]. rewrite drop_app.
  destruct rest as [|c rest]; [done|]. destruct St as [_ N]. clear -N.
  destruct c as [|p|p]; [done| |done]. repeat (destruct p as [p|p|]; try reflexivity; try lia).
Qed.
Lemma m_xid_head c t : isid c = false -> m_xid (c :: t) = None.
Proof. intros N. unfold m_xid. by rewrite m_id_head. Qed.
Lemma m_xvalue_head c t : c <> 34 -> m_xvalue (c :: t) = None.
Proof. intros N. unfold m_xvalue. destruct c as [|p|p]; [done| |done]. repeat (destruct p as [p|p|]; try reflexivity; try lia). Qed.
Lemma m_xend_head e l c t : isspace c = false -> c <> e -> m_xend (e :: l) (c :: t) = None.
Proof. intros N1 N2. unfold m_xend, m_seq, m_ws. cbn [run]. rewrite N1. cbn [drop]. rewrite m_lit_head by done. done. Qed.
Lemma m_xassign_head c t : isspace c = false -> c <> 61 -> m_xassign (c :: t) = None.
Proof. intros N1 N2. unfold m_xassign, m_seq, m_ws. cbn [run]. rewrite N1. cbn [drop]. rewrite m_lit_head by done. done. Qed.
Lemma m_any_le c t k : (1 <= k)%nat -> match m_any (c :: t) with None => True | Some n => (n <= k)%nat end.
Proof. intros L. pose proof (m_any_head c t). destruct (m_any (c :: t)); [lia|done]. Qed.

Lemma m_lit_cons x l t : m_lit (x :: l) (x :: t) = (n ← m_lit l t; Some (S n)).
Proof. cbn [m_lit]. by rewrite Z.eqb_refl. Qed.

Ltac none := constructor; [exact I|].

(** Tags. *)
Lemma xlexes_open_ nm rest ts : (exists c t, nm = c :: t /\ ident_start c) -> m_xid (nm ++ rest) = Some (length nm) -> xlexes rest ts -> xlexes (60 :: nm ++ rest) (XtOpen nm :: ts).
Proof.
  intros H E R. change (XtOpen nm :: ts) with (put (Some (XtOpen nm)) ts). change (60 :: nm ++ rest) with ((60 :: nm) ++ rest).
  apply (lexes_tok xml_rules (60 :: nm) rest (fun txt => Some (Some (XtOpen (drop 1 txt))))); [|done|reflexivity|exact R]. clear R.
  destruct H as (c & t & -> & Hc). cbn [app] in *. unfold ident_start in Hc.
  change xml_rules with (take 6 xml_rules ++ (m_seq (m_lit [60]) m_xid, fun txt => Some (Some (XtOpen (drop 1 txt)))) :: drop 7 xml_rules).
  apply select_best.
  - unfold m_seq. cbn [m_lit Z.eqb Pos.eqb mbind option_bind drop]. by rewrite E.
  - unfold xml_rules. cbn [take]. do 4 none. constructor; [|none; constructor]. cbn [fst].
    rewrite (m_lit_cons 60), m_lit_head by lia. exact I.
  - unfold xml_rules. cbn [drop]. constructor.
    { cbn [fst]. unfold m_seq. rewrite (m_lit_cons 60), m_lit_head by lia. exact I. }
    do 2 none. constructor; [cbn [fst]; apply m_any_le; cbn; lia|constructor].
Qed.

Lemma xlexes_open nm rest ts : identifier nm -> xstop rest -> xlexes rest ts -> xlexes (60 :: nm ++ rest) (XtOpen nm :: ts).
Proof. intros H St. apply xlexes_open_; [destruct H as (c & t & -> & Hc & _); by exists c, t|by apply m_xid_ok]. Qed.

Lemma xlexes_close_ nm rest ts : m_xid (nm ++ rest) = Some (length nm) -> xlexes rest ts -> xlexes ([60; 47] ++ nm ++ rest) (XtClose nm :: ts).
Proof.
  intros E R. change (XtClose nm :: ts) with (put (Some (XtClose nm)) ts). change ([60; 47] ++ nm ++ rest) with ((60 :: 47 :: nm) ++ rest).
  apply (lexes_tok xml_rules (60 :: 47 :: nm) rest (fun txt => Some (Some (XtClose (drop 2 txt))))); [|done|reflexivity|exact R]. clear R.
  cbn [app].
  change xml_rules with (take 7 xml_rules ++ (m_seq (m_lit [60; 47]) m_xid, fun txt => Some (Some (XtClose (drop 2 txt)))) :: drop 8 xml_rules).
  apply select_best.
  - unfold m_seq. cbn [m_lit Z.eqb Pos.eqb mbind option_bind drop]. rewrite drop_0, E. done.
  - unfold xml_rules. cbn [take]. do 7 none. constructor.
  - unfold xml_rules. cbn [drop]. do 2 none. constructor; [cbn [fst]; apply m_any_le; cbn; lia|constructor].
Qed.

Lemma xlexes_close nm rest ts : identifier nm -> xstop rest -> xlexes rest ts -> xlexes ([60; 47] ++ nm ++ rest) (XtClose nm :: ts).
Proof. intros H St. apply xlexes_close_. by apply m_xid_ok. Qed.

(** Names with a prefix. *)
Lemma m_xid_prefix pre nm rest : identifier pre -> identifier nm -> xstop rest ->
  m_xid ((pre ++ 58 :: nm) ++ rest) = Some (length (pre ++ 58 :: nm)).
Proof.
  intros I1 I2 St. unfold m_xid. rewrite <- app_assoc. cbn [app]. rewrite m_id_ok; [|done|done]. cbn [mbind option_bind]. rewrite drop_app.
  rewrite m_id_ok; [|done|destruct rest; [done|by destruct St]]. rewrite app_length. done.
Qed.

Lemma xlexes_docopen rest ts : xlexes rest ts -> xlexes ([60; 63; 120; 109; 108] ++ rest) (XtDocOpen :: ts).
Proof.
  intros R. change (XtDocOpen :: ts) with (put (Some XtDocOpen) ts). apply (lexes_tok xml_rules _ rest (fun _ => Some (Some XtDocOpen))); [|done|reflexivity|exact R]. clear R.
  change xml_rules with (take 4 xml_rules ++ (m_lit [60; 63; 120; 109; 108], fun _ => Some (Some XtDocOpen)) :: drop 5 xml_rules).
  apply select_best.
  - done.
  - unfold xml_rules. cbn [take]. do 4 none. constructor.
  - unfold xml_rules. cbn [drop]. do 5 none. constructor; [cbn [fst app]; apply m_any_le; cbn; lia|constructor].
Qed.

(** Ends of tags. *)
Lemma m_xend_ok e c l w rest : e = c :: l -> isspace c = false -> nolt w -> tagged rest -> m_xend e (e ++ w ++ rest) = Some (length (e ++ w)).
Proof.
  intros -> Hc N T. unfold m_xend. rewrite (m_seq_app _ _ _ _ (length w)); [by rewrite app_length| |by apply m_nolt_ok].
  cbn [app]. apply m_ws_one; [done|]. change (c :: l ++ w ++ rest) with ((c :: l) ++ w ++ rest). generalize (c :: l). intros m.
  induction m as [|x m IH]; [done|]. cbn [app m_lit]. rewrite Z.eqb_refl, IH. done.
Qed.
Lemma xlexes_docclose w rest ts : nolt w -> tagged rest -> xlexes rest ts -> xlexes ([63; 62] ++ w ++ rest) (XtDocClose :: ts).
Proof.
  intros N T R. change (XtDocClose :: ts) with (put (Some XtDocClose) ts). rewrite app_assoc. apply (lexes_tok xml_rules _ rest (fun _ => Some (Some XtDocClose))); [|done|reflexivity|exact R]. clear R.
  pose proof (m_xend_ok [63; 62] 63 [62] w rest eq_refl eq_refl N T) as E. rewrite <- app_assoc.
  change xml_rules with (take 5 xml_rules ++ (m_xend [63; 62], fun _ => Some (Some XtDocClose)) :: drop 6 xml_rules).
  apply select_best; [exact E| |].
  - unfold xml_rules. cbn [take app]. do 5 none. constructor.
  - unfold xml_rules. cbn [drop app]. do 4 none. constructor; [cbn [fst]; apply m_any_le; cbn; lia|constructor].
Qed.
Lemma xlexes_empty w rest ts : nolt w -> tagged rest -> xlexes rest ts -> xlexes ([47; 62] ++ w ++ rest) (XtEmpty w :: ts).
Proof.
  intros N T R. change (XtEmpty w :: ts) with (put (Some (XtEmpty w)) ts). rewrite app_assoc. apply (lexes_tok xml_rules _ rest (fun txt => Some (Some (XtEmpty (after_char 62 txt))))); [|done|reflexivity|exact R]. clear R.
  pose proof (m_xend_ok [47; 62] 47 [62] w rest eq_refl eq_refl N T) as E. rewrite <- app_assoc.
  change xml_rules with (take 8 xml_rules ++ (m_xend [47; 62], fun txt => Some (Some (XtEmpty (after_char 62 txt)))) :: drop 9 xml_rules).
  apply select_best; [exact E| |].
  - unfold xml_rules. cbn [take app]. do 8 none. constructor.
  - unfold xml_rules. cbn [drop app]. none. constructor; [cbn [fst]; apply m_any_le; cbn; lia|constructor].
Qed.
Lemma xlexes_content w rest ts : nolt w -> tagged rest -> xlexes rest ts -> xlexes (62 :: w ++ rest) (XtContent w :: ts).
Proof.
  intros N T R. change (XtContent w :: ts) with (put (Some (XtContent w)) ts). change (62 :: w ++ rest) with ((62 :: w) ++ rest).
  apply (lexes_tok xml_rules _ rest (fun txt => Some (Some (XtContent (after_char 62 txt))))); [|done|reflexivity|exact R]. clear R.
  pose proof (m_xend_ok [62] 62 [] w rest eq_refl eq_refl N T) as E. cbn [app].
  change xml_rules with (take 9 xml_rules ++ (m_xend [62], fun txt => Some (Some (XtContent (after_char 62 txt)))) :: drop 10 xml_rules).
  apply select_best; [exact E| |].
  - unfold xml_rules. cbn [take app]. do 9 none. constructor.
  - unfold xml_rules. cbn [drop app]. constructor; [cbn [fst]; apply m_any_le; cbn; lia|constructor].
Qed.

(** Properties. *)
Lemma m_xvalue_ok v rest : Forall (fun c => c <> 34) v -> m_xvalue (34 :: v ++ 34 :: rest) = Some (2 + length v)%nat.
Proof.
  intros N. unfold m_xvalue. rewrite (run_app _ v (34 :: rest)); [|eapply Forall_impl; [exact N|]; cbn; intros c Hc; by rewrite (proj2 (Z.eqb_neq c 34))|done].
  by rewrite drop_app.
Qed.
Lemma xlexes_prop id v rest ts : identifier id -> Forall (fun c => c <> 34) v -> xlexes rest ts ->
  xlexes (xml_attr id v ++ rest) (XtWs :: XtId id :: XtAssign :: XtVal v :: ts).
Proof.
  intros H N R.
  assert (xlexes (34 :: v ++ [34] ++ rest) (XtVal v :: ts)) as R1.
  { change (XtVal v :: ts) with (put (Some (XtVal v)) ts). replace (34 :: v ++ [34] ++ rest) with ((34 :: v ++ [34]) ++ rest) by (cbn [app]; by rewrite <- app_assoc).
    apply (lexes_tok xml_rules _ _ (fun txt => Some (Some (XtVal (take (length txt - 2) (drop 1 txt)))))); [|done| |exact R]; clear R; cycle 1.
    { cbn [length drop app]. rewrite ?drop_0. do 3 f_equal. rewrite app_length. cbn [length]. replace (S (length v + 1) - 2)%nat with (length v) by lia. by rewrite take_app. }
    pose proof (m_xvalue_ok v rest N) as E. cbn [app]. rewrite <- app_assoc. cbn [app].
    change xml_rules with (take 3 xml_rules ++ (m_xvalue, fun txt => Some (Some (XtVal (take (length txt - 2) (drop 1 txt))))) :: drop 4 xml_rules).
    apply select_best; [rewrite E; f_equal; cbn [length]; rewrite app_length; cbn; lia| |].
    - unfold xml_rules. cbn [take app]. do 3 none. constructor.
    - unfold xml_rules. cbn [drop app]. do 6 none. constructor; [cbn [fst]; apply m_any_le; cbn; lia|constructor]. }
  assert (xlexes (61 :: 34 :: v ++ [34] ++ rest) (XtAssign :: XtVal v :: ts)) as R2.
  { change (XtAssign :: XtVal v :: ts) with (put (Some XtAssign) (XtVal v :: ts)). change (61 :: 34 :: v ++ [34] ++ rest) with ([61] ++ 34 :: v ++ [34] ++ rest).
    apply (lexes_tok xml_rules _ _ (fun _ => Some (Some XtAssign))); [|done|reflexivity|exact R1]. clear R R1.
    change xml_rules with (take 2 xml_rules ++ (m_xassign, fun _ => Some (Some XtAssign)) :: drop 3 xml_rules).
    apply select_best; [reflexivity| |].
    - unfold xml_rules. cbn [take app]. do 2 none. constructor.
    - unfold xml_rules. cbn [drop app]. do 7 none. constructor; [cbn [fst]; apply m_any_le; cbn; lia|constructor]. }
  assert (xlexes (id ++ 61 :: 34 :: v ++ [34] ++ rest) (XtId id :: XtAssign :: XtVal v :: ts)) as R3.
  { change (XtId id :: XtAssign :: XtVal v :: ts) with (put (Some (XtId id)) (XtAssign :: XtVal v :: ts)).
    pose proof (m_xid_ok id (61 :: 34 :: v ++ [34] ++ rest) H ltac:(done)) as E.
    apply (lexes_tok xml_rules _ _ (fun txt => Some (Some (XtId txt)))); [|by destruct H as (? & ? & -> & _)|reflexivity|exact R2]. clear R R1 R2.
    destruct H as (c & t & -> & Hc & _). unfold ident_start in Hc. cbn [app] in *.
    change xml_rules with (take 1 xml_rules ++ (m_xid, fun txt => Some (Some (XtId txt))) :: drop 2 xml_rules).
    assert (isspace c = false) as Hs by (unfold isspace; lia).
    apply select_best; [exact E| |].
    - unfold xml_rules. cbn [take app]. constructor; [cbn [fst]; by rewrite m_space_head|constructor].
    - unfold xml_rules. cbn [drop app].
      constructor; [cbn [fst]; rewrite m_xassign_head; [done|done|lia]|].
      constructor; [cbn [fst]; rewrite m_xvalue_head; [done|lia]|].
      constructor; [cbn [fst]; rewrite m_lit_head; [done|lia]|].
      constructor; [cbn [fst]; rewrite m_xend_head; [done|done|lia]|].
      constructor; [cbn [fst]; unfold m_seq; rewrite m_lit_head; [done|lia]|].
      constructor; [cbn [fst]; unfold m_seq; rewrite m_lit_head; [done|lia]|].
      constructor; [cbn [fst]; rewrite m_xend_head; [done|done|lia]|].
      constructor; [cbn [fst]; rewrite m_xend_head; [done|done|lia]|].
      constructor; [cbn [fst]; apply m_any_le; cbn; lia|constructor]. }
  unfold xml_attr. replace ((32 :: id ++ [61; 34] ++ v ++ [34]) ++ rest) with ([32] ++ id ++ 61 :: 34 :: v ++ [34] ++ rest) by (cbn [app]; by rewrite <- !app_assoc; cbn [app]; rewrite <- !app_assoc).
  change (XtWs :: XtId id :: XtAssign :: XtVal v :: ts) with (put (Some XtWs) (XtId id :: XtAssign :: XtVal v :: ts)).
  apply (lexes_tok xml_rules _ _ (fun _ => Some (Some XtWs))); [|done|reflexivity|exact R3]. clear R R1 R2 R3.
  destruct H as (c & t & -> & Hc & _). unfold ident_start in Hc. cbn [app].
  assert (isspace c = false) as Hs by (unfold isspace; lia).
  assert (forall x l u, x <> c -> m_ws (m_lit (x :: l)) (32 :: c :: u) = None) as W.
  { intros x l u Nx. unfold m_ws. cbn [run]. change (isspace 32) with true. cbv iota. rewrite Hs. cbn [drop]. by rewrite m_lit_head. }
  change xml_rules with ([] ++ (m_space, fun _ : list Z => Some (Some XtWs)) :: drop 1 xml_rules).
  apply select_best; [|constructor|].
  - unfold m_space. cbn [run]. change (isspace 32) with true. cbv iota. by rewrite Hs.
  - unfold xml_rules. cbn [drop app]. none.
    constructor; [cbn [fst]; unfold m_xassign, m_seq; rewrite W by lia; done|]. do 2 none.
    constructor; [cbn [fst]; unfold m_xend, m_seq; rewrite W by lia; done|]. do 2 none.
    do 2 (constructor; [cbn [fst]; unfold m_xend, m_seq; rewrite W by lia; done|]).
    constructor; [cbn [fst]; apply m_any_le; cbn; lia|constructor].
Qed.

(** Numbers of nodes. *)
Lemma load_idx_ok ds : plain ds -> numeral_value 10 ds < 2 ^ 32 -> load_idx ds = Some (Z.to_nat (numeral_value 10 ds)).
Proof.
  intros (N & Fd & Hz) L.
  assert (forall c, dig c -> digit_val c = c - 48) as Dv.
  { intros c Hc. unfold digit_val, isdigit. unfold dig in Hc. by replace ((48 <=? c) && (c <=? 57)) with true by lia. }
  assert (forall l v, Forall dig l -> foldl (fun v c => v * 10 + digit_val c) v l = foldl (fun v c => v * 10 + (c - 48)) v l) as Fe.
  { intros l v A. revert v. induction A as [|c l Hc _ IH]; intros v; [done|]. cbn [foldl]. by rewrite IH, Dv. }
  assert (0 <= numeral_value 10 ds) as G.
  { rewrite <- digits_value_ok by done. unfold digits_value.
    assert (forall v, 0 <= v -> 0 <= foldl (fun v c => v * 10 + (c - 48)) v ds) as G; [|by apply G].
    clear -Fd. induction Fd as [|c l Hc _ IH]; intros v Hv; [done|]. cbn [foldl]. apply IH. unfold dig in Hc. lia. }
  destruct ds as [|d ds]; [done|]. apply Forall_cons in Fd as Fd'. destruct Fd' as [Hd _].
  unfold load_idx. assert (strtoull_end ((d :: ds) ++ [34]) = (numeral_value 10 (d :: ds), length (d :: ds))) as ->.
  2: { rewrite (proj2 (Nat.leb_le _ _)) by lia. by rewrite Z.mod_small by lia. }
  destruct (decide (d = 48)) as [->|Nd]; [injection (Hz eq_refl) as ->; vm_compute; reflexivity|].
  unfold strtoull_end.
  assert (run isspace ((d :: ds) ++ [34]) = 0%nat) as -> by (cbn [app run]; unfold dig in Hd; by replace (isspace d) with false by (unfold isspace; lia)).
  rewrite drop_0. assert (m_sign ((d :: ds) ++ [34]) = 0%nat) as -> by (cbn [app m_sign]; unfold dig in Hd; by replace ((d =? 43) || (d =? 45)) with false by lia).
  rewrite drop_0.
  assert (match (d :: ds) ++ [34] with 45 :: _ => true | _ => false end = false) as ->.
  { cbn [app]. unfold dig in Hd. clear -Hd. destruct d as [|p|p]; [done| |done]. repeat (destruct p as [p|p|]; try reflexivity; try lia). }
  assert (match (d :: ds) ++ [34] with
          | 48 :: x :: y :: _ => if ((x =? 120) || (x =? 88)) && isxdigit y then (16, 2%nat) else (8, 0%nat)
          | 48 :: _ => (8, 0%nat)
          | _ => (10, 0%nat)
          end = (10, 0%nat)) as ->.
  { cbn [app]. clear -Nd. destruct d as [|p|p]; [done| |done]. repeat (destruct p as [p|p|]; try reflexivity; try lia). }
  rewrite drop_0. rewrite (run_app _ (d :: ds) [34]); [|eapply Forall_impl; [exact Fd|]; intros c Hc; rewrite Dv by done; unfold dig in Hc; lia|done].
  rewrite take_app. change (Nat.eqb (length (d :: ds)) 0) with false. cbv iota.
  assert (foldl (fun v c => v * 10 + digit_val c) 0 (d :: ds) = numeral_value 10 (d :: ds)) as ->.
  { rewrite Fe by done. by rewrite <- digits_value_ok. }
  destruct (Z.ltb_spec (numeral_value 10 (d :: ds)) (2 ^ 64)); [done|lia].
Qed.
