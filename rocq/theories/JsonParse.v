(** The JSON grammar and the documents it describes. *)
From Verif Require Import Base Ptrs Parse ParseProof Json DfsProof.

(** What a node of the text says. *)
Inductive jval := VObj | VArr | VStr (c : list Z) | VNum (v : lval) | VNull.
Record jpay := JPay { a_name : option (list Z); a_val : jval }.

Definition jfin (a : jpay) (k : nat) (n : node) : node := set_pub_idx n k.
Definition jinf (a : jpay) : pinfo :=
  match a_val a with
  | VObj | VArr => PInfo LNone false (a_name a)
  | VStr c => PInfo (default LNone (string_value c)) false (a_name a)
  | VNum v => PInfo v false (a_name a)
  | VNull => PInfo (LInt 0) true (a_name a)
  end.

Notation jdoc := (doc jpay).
Notation jopened := (@opened jpay pinfo jfin).

(** The tokens of a document. *)
Fixpoint sep (l : list (list token)) : list token :=
  match l with
  | [] => []
  | [x] => x
  | x :: l => x ++ TComma :: sep l
  end.
Fixpoint dtoks (t : jdoc) : list token :=
  match t with
  | Doc a ks =>
    match a_val a with
    | VObj => TLBrace :: sep (map (fun k => match k with Doc b _ => TStr (default [] (a_name b)) end :: TColon :: dtoks k) ks) ++ [TRBrace]
    | VArr => TLBracket :: sep (map dtoks ks) ++ [TRBracket]
    | VStr c => [TStr c]
    | VNum v => [TNum v]
    | VNull => [TNull]
    end
  end.
Definition dname (t : jdoc) : option (list Z) := match t with Doc a _ => a_name a end.
Definition mtoks (t : jdoc) : list token := TStr (default [] (dname t)) :: TColon :: dtoks t.
Lemma dtoks_eq a ks : dtoks (Doc a ks) =
    match a_val a with
    | VObj => TLBrace :: sep (map mtoks ks) ++ [TRBrace]
    | VArr => TLBracket :: sep (map dtoks ks) ++ [TRBracket]
    | VStr c => [TStr c]
    | VNum v => [TNum v]
    | VNull => [TNull]
    end.
Proof. cbn. destruct (a_val a); [|done..]. do 3 f_equal. apply map_ext. by intros []. Qed.

Section Known.
  Context (known : list Z -> bool).

  (** Members have known names, elements have none, leaves have no children. *)
  Definition jgood (a : jpay) (ks : list jdoc) : Prop :=
    match a_val a with
    | VObj => Forall (fun k => exists nm, dname k = Some nm /\ known nm = true) ks
    | VArr => Forall (fun k => dname k = None) ks
    | VStr c => ks = [] /\ exists v, string_value c = Some v
    | VNum _ | VNull => ks = []
    end.
  Notation good := (doc_all jgood).
  Definition anon (t : jdoc) : jdoc := match t with Doc a ks => Doc (JPay None (a_val a)) ks end.
  Definition named (nm : list Z) (t : jdoc) : jdoc := match t with Doc a ks => Doc (JPay (Some nm) (a_val a)) ks end.

  Lemma fin_next a k n v : set_next (jfin a k n) v = jfin a k (set_next n v).
  Proof. done. Qed.
  Lemma fin_parent a k n : parent (jfin a k n) = parent n.
  Proof. done. Qed.

  Lemma lset_info_ok pre n0 (ks : list jdoc) c is d f : length is = length pre ->
    lset_info (jopened pre n0 ks c (is ++ [d])) (length pre) f = Some (jopened pre n0 ks c (is ++ [f d])).
  Proof.
    intros L. unfold lset_info, opened. cbn [l_info l_ptrs l_cur]. unfold rd. rewrite lookup_app_r by lia. rewrite L, Nat.sub_diag. cbn.
    rewrite wr_Some by (rewrite app_length; cbn; lia). cbn. rewrite insert_app_r_alt by lia. rewrite L, Nat.sub_diag. done.
  Qed.

  (** push_node of the JSON grammar. *)
  Lemma json_push_ok pre n0 ks c is : first_child n0 = 0 -> cached (length pre) ks c -> length pre <> 0 \/ ks = [] ->
    exists pre', length pre' = length pre + S (dsizes ks) /\
    json_push (jopened pre n0 ks c is) = Some (jopened pre' (jfin (JPay None VNull) (length pre') (blank (length pre) 0 0)) [] (length pre') (is ++ [pinfo0])) /\
    forall t, pre' ++ table jfin (length pre) (length pre') 0 t = opened_ns jfin pre n0 (ks ++ [t]).
  Proof.
    intros F C D. destruct (push_ok jfin fin_next fin_parent pinfo0 pre n0 ks c is F C D) as (pre' & L & E & K).
    exists pre'. split; [done|]. split; [|done]. unfold json_push. rewrite E. cbn [mbind option_bind].
    unfold lset_node, upd, opened. cbn [l_ptrs l_cur l_info ra cache]. rewrite (rd_lu _ _ _ (own_lookup _ _ _ _)). cbn [mbind option_bind].
    rewrite wr_Some by (rewrite opened_length; lia). cbn [mbind option_bind]. do 3 f_equal.
    unfold opened_ns. cbn [tables]. rewrite insert_app_r_alt by lia. rewrite Nat.sub_diag. cbn. do 2 f_equal.
    unfold own. by destruct (length pre').
  Qed.

  Lemma own_fin a k p (ks : list jdoc) : own k ks (jfin (JPay None VNull) k (blank p 0 0)) = jfin a k (blank p 0 (match k, ks with 0, _ | _, [] => 0 | _, _ => S k end)).
  Proof. by destruct k, ks. Qed.

  (** ** Documents are accepted *)
  Definition accepted (t : jdoc) : Prop := forall pre n0 ks c is rest,
    first_child n0 = 0 -> cached (length pre) ks c -> length pre <> 0 \/ ks = [] -> length is = length pre + S (dsizes ks) ->
    exists c', derives known Element (dtoks t ++ rest) (jopened pre n0 ks c is) rest
      (jopened pre n0 (ks ++ [anon t]) c' (is ++ dinfos jinf (anon t))) /\ cached (length pre) (ks ++ [anon t]) c'.

  Lemma dsize_anon t : dsize (anon t) = dsize t. Proof. by destruct t. Qed.
  Lemma dsize_named nm t : dsize (named nm t) = dsize t. Proof. by destruct t. Qed.
  Lemma named_anon nm t : named nm (anon t) = named nm t. Proof. by destruct t. Qed.
  Lemma anon_id t : dname t = None -> anon t = t.
  Proof. destruct t as [[n v] ks]. cbn. by intros ->. Qed.
  Lemma named_id nm t : dname t = Some nm -> named nm t = t.
  Proof. destruct t as [[n v] ks]. cbn. by intros ->. Qed.

  Lemma cached_size k (ks : list jdoc) t t' c : dsize t = dsize t' -> cached k (ks ++ [t]) c -> cached k (ks ++ [t']) c.
  Proof.
    intros E C vs u Eu. apply app_inj_2 in Eu as [<- [= <-]]; [|done]. destruct (C ks t eq_refl) as [C1 C2].
    rewrite dsizes_app, dsizes_one in *. lia.
  Qed.

  Lemma tables_rename p j nx ks nm t : tables jfin p j nx (ks ++ [named nm t]) = tables jfin p j nx (ks ++ [t]).
  Proof. rewrite !tables_snoc. f_equal. destruct t as [a vs]. cbn [named]. by rewrite !table_eq. Qed.

  (** The action naming the last child. *)
  Lemma name_last_ok pre n0 ks t c is nm : length pre <> 0 -> cached (length pre) (ks ++ [t]) c -> length is = length pre + S (dsizes ks) ->
    name_last known nm (jopened pre n0 (ks ++ [t]) c (is ++ dinfos jinf t)) =
    if known nm then Some (jopened pre n0 (ks ++ [named nm t]) (length pre + S (dsizes ks)) (is ++ dinfos jinf (named nm t))) else None.
  Proof.
    intros Z C L. unfold name_last, llast, opened. cbn [l_ptrs l_info l_cur].
    rewrite (last_child_some jfin fin_next fin_parent) by done. cbn [mbind option_bind fst snd Nat.eqb Nat.add]. destruct (known nm); [|done].
    unfold lset_info. cbn [l_info l_ptrs l_cur]. unfold rd. rewrite lookup_app_r by lia.
    replace (S (length pre + dsizes ks)) with (length is) by lia. rewrite Nat.sub_diag. destruct t as [a vs]. cbn [dinfos lookup list_lookup mbind option_bind].
    rewrite wr_Some by (rewrite app_length; cbn; lia). cbn [mbind option_bind]. do 3 f_equal.
    - unfold opened_ns. rewrite <- (tables_rename _ _ _ _ nm). cbn [named]. do 2 f_equal. unfold own. destruct (length pre); [done|]. by destruct ks.
    - lia.
    - rewrite insert_app_r_alt by lia. rewrite Nat.sub_diag. cbn. do 2 f_equal. unfold jinf. cbn. by destruct (a_val a).
  Qed.

  Lemma accept_member t nm : accepted t -> dname t = Some nm -> known nm = true ->
    forall pre n0 ks c is rest, first_child n0 = 0 -> cached (length pre) ks c -> length pre <> 0 -> length is = length pre + S (dsizes ks) ->
    exists c', derives known Member (mtoks t ++ rest) (jopened pre n0 ks c is) rest
      (jopened pre n0 (ks ++ [t]) c' (is ++ dinfos jinf t)) /\ cached (length pre) (ks ++ [t]) c'.
  Proof.
    intros Ac N K pre n0 ks c is rest F C Z L. destruct (Ac pre n0 ks c is rest F C (or_introl Z) L) as (c' & D & C').
    exists (length pre + S (dsizes ks)). split.
    - unfold mtoks. rewrite N. cbn [default app]. econstructor; [exact D|]. cbn [id].
      rewrite name_last_ok by done. rewrite K.
      by rewrite named_anon, (named_id nm t) by done.
    - replace (length pre + S (dsizes ks)) with (S (length pre) + dsizes ks) by lia. apply cached_last.
  Qed.

  Lemma accept_elements ts : ts <> [] -> Forall accepted ts -> Forall (fun k => dname k = None) ts ->
    forall pre n0 ks c is rest, first_child n0 = 0 -> cached (length pre) ks c -> length pre <> 0 -> length is = length pre + S (dsizes ks) ->
    exists c', derives known Elements (sep (map dtoks ts) ++ rest) (jopened pre n0 ks c is) rest
      (jopened pre n0 (ks ++ ts) c' (is ++ concat (map (dinfos jinf) ts))) /\ cached (length pre) (ks ++ ts) c'.
  Proof.
    induction ts as [|t ts IH]; [done|]. intros _ Ac N pre n0 ks c is rest F C Z L.
    apply Forall_cons in Ac as [At As], N as [Nt Ns].
    destruct ts as [|t' ts].
    - destruct (At pre n0 ks c is rest F C (or_introl Z) L) as (c' & D & C'). rewrite (anon_id t Nt) in D, C'.
      exists c'. cbn. rewrite app_nil_r. split; [by constructor|done].
    - destruct (At pre n0 ks c is (TComma :: sep (map dtoks (t' :: ts)) ++ rest) F C (or_introl Z) L) as (c1 & D1 & C1). rewrite (anon_id t Nt) in D1, C1.
      destruct (IH ltac:(done) As Ns pre n0 (ks ++ [t]) c1 (is ++ dinfos jinf t) rest F C1 Z) as (c' & D & C').
      { rewrite app_length, dinfos_length, dsizes_app, dsizes_one. lia. }
      exists c'. rewrite <- !app_assoc in D. cbn [app] in D. rewrite <- app_assoc in C'. split; [|done].
      cbn [map sep] in *. rewrite <- app_assoc. cbn [app concat]. eapply D_elements; [exact D1|]. exact D.
  Qed.

  Lemma accept_members ts : ts <> [] -> Forall accepted ts -> Forall (fun k => exists nm, dname k = Some nm /\ known nm = true) ts ->
    forall pre n0 ks c is rest, first_child n0 = 0 -> cached (length pre) ks c -> length pre <> 0 -> length is = length pre + S (dsizes ks) ->
    exists c', derives known Members (sep (map mtoks ts) ++ rest) (jopened pre n0 ks c is) rest
      (jopened pre n0 (ks ++ ts) c' (is ++ concat (map (dinfos jinf) ts))) /\ cached (length pre) (ks ++ ts) c'.
  Proof.
    induction ts as [|t ts IH]; [done|]. intros _ Ac N pre n0 ks c is rest F C Z L.
    apply Forall_cons in Ac as [At As], N as [(nm & Nt & Kt) Ns].
    destruct ts as [|t' ts].
    - destruct (accept_member t nm At Nt Kt pre n0 ks c is rest F C Z L) as (c' & D & C').
      exists c'. cbn [map sep concat]. rewrite app_nil_r. split; [by constructor|done].
    - destruct (accept_member t nm At Nt Kt pre n0 ks c is (TComma :: sep (map mtoks (t' :: ts)) ++ rest) F C Z L) as (c1 & D1 & C1).
      destruct (IH ltac:(done) As Ns pre n0 (ks ++ [t]) c1 (is ++ dinfos jinf t) rest F C1 Z) as (c' & D & C').
      { rewrite app_length, dinfos_length, dsizes_app, dsizes_one. lia. }
      exists c'. rewrite <- !app_assoc in D. cbn [app] in D. rewrite <- app_assoc in C'. split; [|done].
      cbn [map sep] in *. rewrite <- app_assoc. cbn [app concat]. eapply D_members; [exact D1|]. exact D.
  Qed.

  Lemma accept t : good (anon t) -> accepted t.
  Proof.
    induction t as [a ts IH] using doc_ind'. cbn [anon]. rewrite doc_all_eq. intros [G Gs].
    assert (Forall accepted ts) as Ac.
    { clear G. induction IH as [|t ts Ht _ IH]; [done|]. apply Forall_cons in Gs as [Gt Gs]. constructor; [|by apply IH].
      apply Ht. destruct t as [b vs]. cbn [anon]. rewrite doc_all_eq in *. by destruct Gt. }
    intros pre n0 ks c is rest F C Z L.
    destruct (json_push_ok pre n0 ks c is F C Z) as (pre' & L' & E & K).
    set (n1 := jfin (JPay None VNull) (length pre') (blank (length pre) 0 0)) in *.
    assert (length pre' <> 0) as Z' by lia.
    assert (exists c', derives known Value (dtoks (Doc a ts) ++ rest) (jopened pre' n1 [] (length pre') (is ++ [pinfo0])) rest
      (jopened pre' n1 ts c' (is ++ dinfos jinf (anon (Doc a ts)))) /\ length pre' <= c' /\ c' < length pre' + S (dsizes ts)) as (c' & D & C1 & C2).
    { rewrite dtoks_eq. cbn [anon dinfos]. unfold jgood in G. cbn [a_val] in G. destruct a as [nm v]. cbn [a_val] in *. unfold jinf at 1. cbn [a_val a_name].
      destruct v as [| |s|v|].
      - destruct ts as [|t ts].
        + exists (length pre'). split; [|cbn; lia]. apply D_value_object. cbn. constructor.
        + destruct (accept_members (t :: ts) ltac:(done) Ac G pre' n1 [] (length pre') (is ++ [pinfo0]) (TRBrace :: rest)) as (c' & D & C'); [done|apply cached_nil|done|rewrite app_length; cbn; lia|].
          exists c'. cbn [app] in *. rewrite <- app_assoc. cbn [app]. split.
          * apply D_value_object. constructor. rewrite <- app_assoc in D. exact D.
          * destruct (exists_last (l := t :: ts) ltac:(done)) as (vs & u & Eu). destruct (C' vs u Eu). lia.
      - destruct ts as [|t ts].
        + exists (length pre'). split; [|cbn; lia]. apply D_value_array. cbn. constructor.
        + destruct (accept_elements (t :: ts) ltac:(done) Ac G pre' n1 [] (length pre') (is ++ [pinfo0]) (TRBracket :: rest)) as (c' & D & C'); [done|apply cached_nil|done|rewrite app_length; cbn; lia|].
          exists c'. cbn [app] in *. rewrite <- app_assoc. cbn [app]. split.
          * apply D_value_array. constructor. rewrite <- app_assoc in D. exact D.
          * destruct (exists_last (l := t :: ts) ltac:(done)) as (vs & u & Eu). destruct (C' vs u Eu). lia.
      - destruct G as [-> [v Hv]]. exists (length pre'). split; [|cbn; lia]. cbn. eapply D_value_string; [exact Hv|]. rewrite Hv. cbn.
        apply lset_info_ok. lia.
      - subst ts. exists (length pre'). split; [|cbn; lia]. cbn. apply D_value_number. apply lset_info_ok. lia.
      - subst ts. exists (length pre'). split; [|cbn; lia]. cbn. apply D_value_null. apply lset_info_ok. lia. }
    destruct (pop_ok jfin fin_next fin_parent pre n0 ks pre' n1 (JPay None (a_val a)) ts c' (is ++ dinfos jinf (anon (Doc a ts))) K L') as [P C']; [|done..|].
    { unfold n1. rewrite (own_fin (JPay None (a_val a))). destruct (length pre'); [done|]. by destruct ts. }
    exists c'. split; [|exact C']. econstructor; [exact E|exact D|exact P].
  Qed.

  (** ** Nothing else is accepted *)
  Definition explains (x : nt) (ts : list token) (s : lst pinfo) (ts' : list token) (s' : lst pinfo) : Prop :=
    forall pre n0 ks c is, s = jopened pre n0 ks c is -> first_child n0 = 0 -> cached (length pre) ks c ->
      match x with
      | Element => length pre <> 0 \/ ks = []
      | Members | Member | Elements => length pre <> 0
      | Value | Object | Array => length pre <> 0 /\ ks = [] /\ c = length pre
      end ->
      match x with
      | Value => exists is0, is = is0 ++ [pinfo0] /\ length is0 = length pre
      | Object | Array => length is = S (length pre)
      | _ => length is = length pre + S (dsizes ks)
      end ->
      match x with
      | Element => exists t c', good t /\ dname t = None /\ ts = dtoks t ++ ts' /\
          s' = jopened pre n0 (ks ++ [t]) c' (is ++ dinfos jinf t) /\ cached (length pre) (ks ++ [t]) c'
      | Member => exists t c', good t /\ (exists nm, dname t = Some nm /\ known nm = true) /\ ts = mtoks t ++ ts' /\
          s' = jopened pre n0 (ks ++ [t]) c' (is ++ dinfos jinf t) /\ cached (length pre) (ks ++ [t]) c'
      | Elements => exists us c', us <> [] /\ Forall good us /\ Forall (fun t => dname t = None) us /\ ts = sep (map dtoks us) ++ ts' /\
          s' = jopened pre n0 (ks ++ us) c' (is ++ concat (map (dinfos jinf) us)) /\ cached (length pre) (ks ++ us) c'
      | Members => exists us c', us <> [] /\ Forall good us /\ Forall (fun t => exists nm, dname t = Some nm /\ known nm = true) us /\ ts = sep (map mtoks us) ++ ts' /\
          s' = jopened pre n0 (ks ++ us) c' (is ++ concat (map (dinfos jinf) us)) /\ cached (length pre) (ks ++ us) c'
      | Value => exists v us c', good (Doc (JPay None v) us) /\ ts = dtoks (Doc (JPay None v) us) ++ ts' /\
          s' = jopened pre n0 us c' (take (length pre) is ++ dinfos jinf (Doc (JPay None v) us)) /\ length pre <= c' /\ c' < length pre + S (dsizes us)
      | Object => exists us c', Forall good us /\ Forall (fun t => exists nm, dname t = Some nm /\ known nm = true) us /\ ts = TLBrace :: sep (map mtoks us) ++ TRBrace :: ts' /\
          s' = jopened pre n0 us c' (is ++ concat (map (dinfos jinf) us)) /\ length pre <= c' /\ c' < length pre + S (dsizes us)
      | Array => exists us c', Forall good us /\ Forall (fun t => dname t = None) us /\ ts = TLBracket :: sep (map dtoks us) ++ TRBracket :: ts' /\
          s' = jopened pre n0 us c' (is ++ concat (map (dinfos jinf) us)) /\ length pre <= c' /\ c' < length pre + S (dsizes us)
      end.

  Lemma opened_inj pre n0 ks c is pre' n0' (ks' : list jdoc) c' (is' : list pinfo) :
    jopened pre n0 ks c is = jopened pre' n0' ks' c' is' -> length pre = length pre' /\ c = c' /\ is = is'.
  Proof. intros E. unfold opened in E. by injection E. Qed.

  Lemma sep_cons x l : l <> [] -> sep (x :: l) = x ++ TComma :: sep l.
  Proof. by destruct l. Qed.

  Lemma last_range k (us : list jdoc) c : us <> [] -> cached k us c -> k <= c /\ c < k + S (dsizes us).
  Proof. intros N C. destruct (exists_last N) as (vs & u & ->). destruct (C vs u eq_refl). lia. Qed.

  Lemma explain x ts s ts' s' : derives known x ts s ts' s' -> explains x ts s ts' s'.
  Proof.
    induction 1 as [ts s s1 ts' s2 s3 Ep D IH Eo|ts s ts' s' D IH|ts s ts' s' D IH|cn v ts s s' Ev Es|v ts s s' Es|ts s s' Es
      |ts s|ts s ts' s' D IH|ts s ts' s' D IH|ts s ts1 s1 ts' s' D1 IH1 D2 IH2|nm ts s ts' s1 s' D IH En
      |ts s|ts s ts' s' D IH|ts s ts' s' D IH|ts s ts1 s1 ts' s' D1 IH1 D2 IH2];
      intros pre n0 ks c is -> F C Z L; cbn [explains] in *.
    - destruct (json_push_ok pre n0 ks c is F C Z) as (pre' & L' & E & K). rewrite Ep in E. injection E as ->.
      set (n1 := jfin (JPay None VNull) (length pre') (blank (length pre) 0 0)) in *.
      destruct (IH pre' n1 [] (length pre') (is ++ [pinfo0]) eq_refl) as (v & us & c' & G & -> & -> & C1 & C2).
      { done. } { apply cached_nil. } { split; [lia|done]. } { exists is. split; [done|lia]. }
      exists (Doc (JPay None v) us), c'. rewrite take_app_alt in Eo by lia.
      destruct (pop_ok jfin fin_next fin_parent pre n0 ks pre' n1 (JPay None v) us c' (is ++ dinfos jinf (Doc (JPay None v) us)) K L') as [P C']; [|done..|].
      { unfold n1. rewrite (own_fin (JPay None v)). destruct (length pre') eqn:Z'; [lia|]. by destruct us. }
      rewrite Eo in P. injection P as ->. done.
    - destruct L as (is0 & -> & L). destruct (IH pre n0 ks c (is0 ++ [pinfo0]) eq_refl F C Z) as (us & c' & G & N & -> & -> & C').
      { rewrite app_length; cbn; lia. }
      exists VObj, us, c'. rewrite take_app_alt by lia. rewrite doc_all_eq, dtoks_eq. cbn [a_val dinfos]. rewrite <- !app_assoc. cbn [app]. rewrite <- app_assoc. done.
    - destruct L as (is0 & -> & L). destruct (IH pre n0 ks c (is0 ++ [pinfo0]) eq_refl F C Z) as (us & c' & G & N & -> & -> & C').
      { rewrite app_length; cbn; lia. }
      exists VArr, us, c'. rewrite take_app_alt by lia. rewrite doc_all_eq, dtoks_eq. cbn [a_val dinfos]. rewrite <- !app_assoc. cbn [app]. rewrite <- app_assoc. done.
    - destruct Z as (Z & -> & ->), L as (is0 & -> & L). rewrite lset_info_ok in Es by done. injection Es as <-.
      exists (VStr cn), [], (length pre). rewrite take_app_alt by lia. cbn. rewrite Ev. cbn. split; [|split; [done|]].
      + split; [|done]. split; [done|by exists v].
      + split; [done|lia].
    - destruct Z as (Z & -> & ->), L as (is0 & -> & L). rewrite lset_info_ok in Es by done. injection Es as <-.
      exists (VNum v), [], (length pre). rewrite take_app_alt by lia. cbn. split; [done|split; [done|]]. split; [done|lia].
    - destruct Z as (Z & -> & ->), L as (is0 & -> & L). rewrite lset_info_ok in Es by done. injection Es as <-.
      exists VNull, [], (length pre). rewrite take_app_alt by lia. cbn. split; [done|split; [done|]]. split; [done|lia].
    - destruct Z as (Z & -> & ->). exists [], (length pre). cbn. rewrite app_nil_r. split; [done|]. split; [done|]. split; [done|]. split; [done|lia].
    - destruct Z as (Z & -> & ->). destruct (IH pre n0 [] (length pre) is eq_refl F C Z) as (us & c' & Nn & G & N & -> & -> & C').
      { rewrite L. cbn. lia. }
      exists us, c'. split; [done|]. split; [done|]. split; [done|]. split; [done|]. by apply last_range.
    - destruct (IH pre n0 ks c is eq_refl F C Z L) as (t & c' & G & N & -> & -> & C').
      exists [t], c'. cbn. rewrite app_nil_r. split; [done|]. split; [by constructor|]. split; [by constructor|]. done.
    - destruct (IH1 pre n0 ks c is eq_refl F C Z L) as (t & c1 & G1 & N1 & -> & -> & C1).
      destruct (IH2 pre n0 (ks ++ [t]) c1 (is ++ dinfos jinf t) eq_refl F C1 Z) as (us & c' & Nn & G & N & -> & -> & C').
      { rewrite app_length, dinfos_length, dsizes_app, dsizes_one. lia. }
      exists (t :: us), c'. rewrite <- !app_assoc in *. cbn [app map concat] in *. split; [done|]. split; [by constructor|]. split; [by constructor|].
      split; [|done]. rewrite sep_cons by (by destruct us). by rewrite <- app_assoc.
    - destruct (IH pre n0 ks c is eq_refl F C (or_introl Z) L) as (t & c1 & G & N & -> & -> & C1).
      rewrite name_last_ok in En by done. destruct (known nm) eqn:Kn; [|done]. injection En as <-.
      exists (named nm t), (length pre + S (dsizes ks)). split; [|split; [|split; [|split; [done|]]]].
      + destruct t as [a us]. cbn [named]. rewrite doc_all_eq in *. done.
      + exists nm. split; [by destruct t|done].
      + unfold mtoks. destruct t as [a us]. cbn [dname named a_name default]. rewrite !dtoks_eq. done.
      + replace (length pre + S (dsizes ks)) with (S (length pre) + dsizes ks) by lia. apply cached_last.
    - destruct Z as (Z & -> & ->). exists [], (length pre). cbn. rewrite app_nil_r. split; [done|]. split; [done|]. split; [done|]. split; [done|lia].
    - destruct Z as (Z & -> & ->). destruct (IH pre n0 [] (length pre) is eq_refl F C Z) as (us & c' & Nn & G & N & -> & -> & C').
      { rewrite L. cbn. lia. }
      exists us, c'. split; [done|]. split; [done|]. split; [done|]. split; [done|]. by apply last_range.
    - destruct (IH pre n0 ks c is eq_refl F C (or_introl Z) L) as (t & c' & G & N & -> & -> & C').
      exists [t], c'. cbn. rewrite app_nil_r. split; [done|]. split; [by constructor|]. split; [by constructor|]. done.
    - destruct (IH1 pre n0 ks c is eq_refl F C (or_introl Z) L) as (t & c1 & G1 & N1 & -> & -> & C1).
      destruct (IH2 pre n0 (ks ++ [t]) c1 (is ++ dinfos jinf t) eq_refl F C1 Z) as (us & c' & Nn & G & N & -> & -> & C').
      { rewrite app_length, dinfos_length, dsizes_app, dsizes_one. lia. }
      exists (t :: us), c'. rewrite <- !app_assoc in *. cbn [app map concat] in *. split; [done|]. split; [by constructor|]. split; [by constructor|].
      split; [|done]. rewrite sep_cons by (by destruct us). by rewrite <- app_assoc.
  Qed.

  (** ** The grammar is unambiguous *)
  Definition unamb (t : jdoc) : Prop := forall t' r r', good t -> good t' -> dname t = dname t' -> dtoks t ++ r = dtoks t' ++ r' -> t = t' /\ r = r'.

  Lemma dtoks_head t : exists x l, dtoks t = x :: l /\ x <> TRBrace /\ x <> TRBracket /\ x <> TComma.
  Proof. destruct t as [[n v] ks]. rewrite dtoks_eq. cbn. destruct v; eexists _, _; by split. Qed.

  Lemma unamb_sep (f : jdoc -> list token) (close : token) : close <> TComma ->
    (forall t, exists x l, f t = x :: l /\ x <> close) ->
    forall ts ts' r r', Forall (fun t => forall t' r r', t' ∈ ts' -> f t ++ r = f t' ++ r' -> t = t' /\ r = r') ts ->
      sep (map f ts) ++ close :: r = sep (map f ts') ++ close :: r' -> ts = ts' /\ r = r'.
  Proof.
    intros Nc Hd. induction ts as [|t ts IH]; intros ts' r r' U E.
    - destruct ts' as [|t' ts'].
      + cbn in E. by injection E.
      + destruct (Hd t') as (x & l & Ex & Nx). cbn [map] in E.
        assert (exists m, sep (f t' :: map f ts') = f t' ++ m) as [m Em].
        { destruct ts'; cbn; [exists []; by rewrite app_nil_r|eexists; done]. }
        rewrite Em, Ex in E. cbn in E. injection E as E _. done.
    - apply Forall_cons in U as [Ut Us]. destruct ts' as [|t' ts'].
      + destruct (Hd t) as (x & l & Ex & Nx). cbn [map] in E.
        assert (exists m, sep (f t :: map f ts) = f t ++ m) as [m Em].
        { destruct ts; cbn; [exists []; by rewrite app_nil_r|eexists; done]. }
        rewrite Em, Ex in E. cbn in E. injection E as E _. done.
      + assert (Forall (fun t => forall t' r r', t' ∈ ts' -> f t ++ r = f t' ++ r' -> t = t' /\ r = r') ts) as Us'.
        { eapply Forall_impl; [exact Us|]. cbn. intros u Hu u' s s' I. apply Hu. by constructor. }
        specialize (IH ts'). cbn [map] in E. destruct ts as [|u us], ts' as [|u' us'].
        * cbn in E. apply Ut in E as [-> E]; [|constructor]. injection E as ->. done.
        * cbn [map] in E. rewrite (sep_cons (f t')) in E by done. rewrite <- app_assoc in E. cbn [sep app] in E.
          apply Ut in E as [_ E]; [|constructor]. injection E as E _. done.
        * cbn [map] in E. rewrite (sep_cons (f t)) in E by done. rewrite <- app_assoc in E. cbn [sep app] in E.
          apply Ut in E as [_ E]; [|constructor]. injection E as E _. done.
        * cbn [map] in E. rewrite (sep_cons (f t)), (sep_cons (f t')) in E by done. rewrite <- !app_assoc in E. cbn [app] in E.
          apply Ut in E as [-> E]; [|constructor]. injection E as E. apply IH in E as [-> ->]; done.
  Qed.

  Lemma unambiguous t : unamb t.
  Proof.
    induction t as [a ts IH] using doc_ind'. intros [b us] r r' G G' N E. rewrite !dtoks_eq in E. rewrite doc_all_eq in *.
    destruct G as [G Gs], G' as [G' Gs']. destruct a as [nm v], b as [nm' v']. cbn [dname a_name] in N. subst nm'.
    unfold jgood in *. cbn [a_val] in *.
    destruct v, v'; cbn [app] in E; try discriminate.
    - injection E as E. rewrite <- !app_assoc in E. cbn [app] in E.
      apply (unamb_sep mtoks TRBrace) in E as [-> ->]; [done|done| |].
      { intros t. unfold mtoks. eexists _, _. by split. }
      apply Forall_forall. intros t I t' s s' I' E'. unfold mtoks in E'. cbn [app] in E'. injection E' as En E'.
      rewrite Forall_forall in IH, G, Gs, G', Gs'. apply (IH t I); [by apply Gs|by apply Gs'| |done].
      destruct (G t I) as (n1 & E1 & _), (G' t' I') as (n2 & E2 & _). rewrite E1, E2 in *. cbn in En. by subst.
    - injection E as E. rewrite <- !app_assoc in E. cbn [app] in E.
      apply (unamb_sep dtoks TRBracket) in E as [-> ->]; [done|done| |].
      { intros t. destruct (dtoks_head t) as (x & l & Ex & _ & Nx & _). eauto. }
      apply Forall_forall. intros t I t' s s' I' E'.
      rewrite Forall_forall in IH, G, Gs, G', Gs'. apply (IH t I); [by apply Gs|by apply Gs'| |done].
      by rewrite (G t I), (G' t' I').
    - injection E as -> ->. destruct G as [-> _], G' as [-> _]. done.
    - injection E as -> ->. by subst.
    - injection E as ->. by subst.
  Qed.
End Known.
