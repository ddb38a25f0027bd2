(** The CINIT grammar and the documents it describes. *)
From Verif Require Import Base Ptrs Value Parse ParseProof Json Cinit DfsProof.

(** ** Expressions are unambiguous *)
Section Expr.
  Context {F : Type} `{FL : Floats F}.

  (** Left to right reading: an operand of level [l] ([None]), or the operators of
      level [l] after an operand ([Some a]). *)
  Inductive reads : nat -> option (expr F) -> list ctok -> expr F -> list ctok -> Prop :=
    | R_num x r : reads 3 None (CtNum x :: r) x r
    | R_id s r : reads 3 None (CtId s :: r) (Id (s ++ [0%Z]) (length s)) r
    | R_neg t x r : reads 3 None t x r -> reads 3 None (CtOp OpMinus :: t) (Neg x) r
    | R_plus t x r : reads 3 None t x r -> reads 3 None (CtOp OpPlus :: t) (Plus x) r
    | R_paren t x r : reads 0 None t x (CtRParen :: r) -> reads 3 None (CtLParen :: t) x r
    | R_level l t a r1 x r : l < 3 -> reads (S l) None t a r1 -> reads l (Some a) r1 x r -> reads l None t x r
    | R_op o a t b r1 x r : reads (S (op_level o)) None t b r1 -> reads (op_level o) (Some (op_expr o a b)) r1 x r ->
        reads (op_level o) (Some a) (CtOp o :: t) x r
    | R_end l a r : (forall o t, r = CtOp o :: t -> op_level o <> l) -> reads l (Some a) r a r.

  Lemma reads_det l o t x r : reads l o t x r -> forall x' r', reads l o t x' r' -> x = x' /\ r = r'.
  Proof.
    induction 1 as [x r|s r|t x r H IH|t x r H IH|t x r H IH|l t a r1 x r Hl H1 IH1 H2 IH2|o a t b r1 x r H1 IH1 H2 IH2|l a r He];
      intros x' r' H'.
    - inversion H'; subst; [done|lia].
    - inversion H'; subst; [done|lia].
    - inversion H'; subst; [|lia]. match goal with R : reads 3 None t _ _ |- _ => apply IH in R as [-> ->] end. done.
    - inversion H'; subst; [|lia]. match goal with R : reads 3 None t _ _ |- _ => apply IH in R as [-> ->] end. done.
    - inversion H'; subst; [|lia]. match goal with R : reads 0 None t _ _ |- _ => apply IH in R as [-> [= ->]] end. done.
    - inversion H'; subst; try lia. match goal with R : reads (S l) None t _ _ |- _ => apply IH1 in R as [<- <-] end. by apply IH2.
    - inversion H'; subst.
      + match goal with R : reads (S _) None t _ _ |- _ => apply IH1 in R as [<- <-] end. by apply IH2.
      + match goal with R : forall _ _, _ |- _ => by destruct (R o t eq_refl) end.
    - inversion H'; subst; [|done]. by destruct (He o t eq_refl).
  Qed.

  Definition low (l : nat) (r : list (@ctok F)) : Prop := forall o t, r = CtOp o :: t -> op_level o < l.

  Lemma phrase_reads l ts x : phrase l ts x -> l <= 3 /\
    (l = 3 -> forall r, reads 3 None (ts ++ r) x r) /\
    (l < 3 -> forall r y r', low (S l) r -> reads l (Some x) r y r' -> reads l None (ts ++ r) y r').
  Proof.
    induction 1 as [l ts x Hl H IH|o ta tb a b Ha IHa Hb IHb|ts x H IH|ts x H IH|x|s|ts x H IH].
    - destruct IH as (_ & I3 & Il). split; [lia|]. split; [lia|]. intros _ r y r' L R.
      econstructor; [done| |exact R]. destruct (decide (S l = 3)) as [E|N].
      + rewrite E. by apply I3.
      + apply Il; [lia| |].
        * intros o t E. specialize (L o t E). lia.
        * constructor. intros o t E. specialize (L o t E). lia.
    - assert (op_level o < 3) as Lo by (destruct o; cbn; lia). destruct IHa as (_ & _ & Ia), IHb as (_ & I3 & Ib).
      split; [lia|]. split; [lia|]. intros _ r y r' L R. rewrite <- app_assoc. cbn [app]. apply Ia; [done| |].
      + intros o' t [= <- _]. lia.
      + apply (R_op o a _ b r); [|done]. destruct (decide (S (op_level o) = 3)) as [E|N].
        * rewrite E. by apply I3.
        * apply Ib; [lia| |].
          -- intros o' t E. specialize (L o' t E). lia.
          -- constructor. intros o' t E. specialize (L o' t E). lia.
    - destruct IH as (_ & I3 & _). split; [lia|]. split; [|lia]. intros _ r. cbn. constructor. by apply I3.
    - destruct IH as (_ & I3 & _). split; [lia|]. split; [|lia]. intros _ r. cbn. constructor. by apply I3.
    - split; [lia|]. split; [|lia]. intros _ r. constructor.
    - split; [lia|]. split; [|lia]. intros _ r. constructor.
    - destruct IH as (_ & _ & I0). split; [lia|]. split; [|lia]. intros _ r. cbn. constructor. rewrite <- app_assoc. cbn [app].
      apply I0; [lia|done|]. by constructor.
  Qed.

  Lemma phrase_det (ts : list (@ctok F)) x x' : phrase 0 ts x -> phrase 0 ts x' -> x = x'.
  Proof.
    intros H H'. assert (forall y, phrase 0 ts y -> reads 0 None (ts ++ []) y []) as G.
    { intros y Hy. apply phrase_reads in Hy as (_ & _ & Hy). apply Hy; [lia|done|]. by constructor. }
    by destruct (reads_det _ _ _ _ _ (G x H) _ _ (G x' H')).
  Qed.

  (** The tokens of expressions. *)
  Definition etok (x : @ctok F) : bool :=
    match x with CtNum _ | CtId _ | CtOp _ | CtLParen | CtRParen => true | _ => false end.
  Lemma phrase_toks l ts x : phrase l ts x -> ts <> [] /\ Forall (fun t => etok t = true) ts.
  Proof.
    induction 1 as [l ts x Hl H IH|o ta tb a b Ha IHa Hb IHb|ts x H IH|ts x H IH|x|s|ts x H IH]; try done.
    - destruct IHa, IHb. split; [by destruct ta|]. apply Forall_app. split; [done|]. by constructor.
    - destruct IH. split; [done|by constructor].
    - destruct IH. split; [done|by constructor].
    - split; [done|]. by repeat constructor.
    - split; [done|]. by repeat constructor.
    - destruct IH. split; [done|]. constructor; [done|]. apply Forall_app. split; [done|]. by repeat constructor.
  Qed.
End Expr.

(** ** Documents *)
Section Doc.
  Context {F : Type} `{FL : Floats F}.
  Context (known : option (list Z) -> list Z -> bool) (ktype : list Z -> bool) (wrapv : bool) (e : env).

  Inductive cval := DBlock (trail : bool) | DStr (c : list Z) | DNull | DChar (c : list Z) | DExpr (tx : list (@ctok F)) (x : expr F).
  Record cpay := CPay { d_name : option (list Z); d_attrs : list (list Z * Z); d_cast : option (list Z); d_val : cval }.

  Definition attr_node (a : list Z * Z) (n : node) : node :=
    if decide (a.1 = txt_ref) then set_ref (Z.to_nat a.2) n
    else if decide (a.1 = txt_ref_content) then set_ref (Z.to_nat a.2) n
    else if decide (a.1 = txt_ref_idx) then set_idx (Z.to_nat a.2) n else n.
  Definition attr_info (a : list Z * Z) (d : @cinfo F) : cinfo :=
    if decide (a.1 = txt_ref) then d else if decide (a.1 = txt_ref_content) then cset_cref d else d.
  Definition cast_info (c : option (list Z)) (d : @cinfo F) : cinfo :=
    match c with Some ty => if decide (ty = txt_void) then d else cset_type ty d | None => d end.
  Definition val_info (v : cval) : @cinfo F :=
    match v with
    | DBlock _ => cinfo0
    | DStr c => cset_val (default VVoid (cinit_string c)) cinfo0
    | DNull => cset_null cinfo0
    | DChar c => cset_val (default VVoid (cinit_char c)) cinfo0
    | DExpr tx x => cset_val (default VVoid (eval wrapv e x)) cinfo0
    end.

  Definition cfin (a : cpay) (k : nat) (n : node) : node := foldr attr_node n (d_attrs a).
  Definition cbody (a : cpay) : cinfo := foldr attr_info (cast_info (d_cast a) (val_info (d_val a))) (d_attrs a).
  Definition cinf (a : cpay) : cinfo := match d_name a with Some nm => cset_name nm (cbody a) | None => cbody a end.

  Notation cdoc := (doc cpay).
  Notation copened := (@opened cpay cinfo cfin).

  Lemma attr_next a n v : set_next (attr_node a n) v = attr_node a (set_next n v).
  Proof. unfold attr_node. by repeat case_decide. Qed.
  Lemma attr_parent a n : parent (attr_node a n) = parent n.
  Proof. unfold attr_node. by repeat case_decide. Qed.
  Lemma fin_next a k n v : set_next (cfin a k n) v = cfin a k (set_next n v).
  Proof. unfold cfin. induction (d_attrs a) as [|x l IH]; [done|]. cbn [foldr]. by rewrite attr_next, IH. Qed.
  Lemma fin_parent a k n : parent (cfin a k n) = parent n.
  Proof. unfold cfin. induction (d_attrs a) as [|x l IH]; [done|]. cbn [foldr]. by rewrite attr_parent, IH. Qed.

  (** The tokens of a document. *)
  Fixpoint ltoks (l : list (list (@ctok F))) (tr : bool) : list ctok :=
    match l with
    | [] => []
    | [x] => x ++ (if tr then [CtComma] else [])
    | x :: l => x ++ CtComma :: ltoks l tr
    end.
  Definition atoks (l : list (list Z * Z)) : list (@ctok F) := map (fun a => CtAttr a.1 a.2) l.
  Definition casttoks (c : option (list Z)) : list (@ctok F) := match c with Some ty => [CtCast ty] | None => [] end.
  Definition nametoks (nm : option (list Z)) : list (@ctok F) := match nm with Some nm => [CtDot; CtId nm; CtAssign] | None => [] end.
  Definition vtoks (v : cval) (ks : list (list ctok)) : list ctok :=
    match v with
    | DBlock tr => CtLBrace :: ltoks ks tr ++ [CtRBrace]
    | DStr c => [CtStr c]
    | DNull => [CtNull]
    | DChar c => [CtChar c]
    | DExpr tx _ => tx
    end.
  Fixpoint dtoks (t : cdoc) : list ctok :=
    match t with
    | Doc a ks => atoks (d_attrs a) ++ casttoks (d_cast a) ++
        vtoks (d_val a) (map (fun k => nametoks (match k with Doc b _ => d_name b end) ++ dtoks k) ks)
    end.
  Definition dname (t : cdoc) : option (list Z) := match t with Doc a _ => d_name a end.
  Definition dtype (t : cdoc) : option (list Z) := match t with Doc a _ => c_type (cbody a) end.
  Definition etoks (t : cdoc) : list ctok := nametoks (dname t) ++ dtoks t.
  Lemma dtoks_eq a ks : dtoks (Doc a ks) = atoks (d_attrs a) ++ casttoks (d_cast a) ++ vtoks (d_val a) (map etoks ks).
  Proof. reflexivity. Qed.

  Definition cname_ok (t : cdoc) : Prop := dname t = None \/ exists nm, dname t = Some nm /\ known (dtype t) nm = true.
  Definition cgood (a : cpay) (ks : list cdoc) : Prop :=
    match d_cast a with Some ty => ty = txt_void \/ ktype ty = true | None => True end /\
    match d_val a with
    | DBlock tr => (tr = true -> ks <> []) /\ Forall cname_ok ks
    | DStr c => ks = [] /\ exists v, cinit_string (F := F) c = Some v
    | DNull => ks = []
    | DChar c => ks = [] /\ exists v, cinit_char (F := F) c = Some v
    | DExpr tx x => ks = [] /\ phrase 0 tx x /\ exists v, eval wrapv e x = Some v /\ accepted v = true
    end.
  Notation good := (doc_all cgood).
  Definition anon (t : cdoc) : cdoc := match t with Doc a ks => Doc (CPay None (d_attrs a) (d_cast a) (d_val a)) ks end.
  Definition named (nm : list Z) (t : cdoc) : cdoc := match t with Doc a ks => Doc (CPay (Some nm) (d_attrs a) (d_cast a) (d_val a)) ks end.

  Lemma dsize_anon t : dsize (anon t) = dsize t. Proof. by destruct t. Qed.
  Lemma dsize_named nm t : dsize (named nm t) = dsize t. Proof. by destruct t. Qed.
  Lemma named_anon nm t : named nm (anon t) = named nm t. Proof. by destruct t. Qed.
  Lemma dtype_anon t : dtype (anon t) = dtype t. Proof. by destruct t. Qed.
  Lemma anon_id t : dname t = None -> anon t = t.
  Proof. destruct t as [[n at_ ca v] ks]. cbn. by intros ->. Qed.
  Lemma named_id nm t : dname t = Some nm -> named nm t = t.
  Proof. destruct t as [[n at_ ca v] ks]. cbn. by intros ->. Qed.

  (** The open node, with whatever the actions made of it. *)
  Definition held (pre : list node) (n : node) (ks : list cdoc) (c : nat) (is : list (@cinfo F)) : lst cinfo :=
    LSt (Ptrs (pre ++ n :: tables cfin (length pre) (S (length pre)) 0 ks) c) is (length pre).

  Lemma held_opened pre n0 ks c is : copened pre n0 ks c is = held pre (own (length pre) ks n0) ks c is.
  Proof. done. Qed.

  Lemma held_info pre n ks c is d rest f : length is = length pre ->
    lset_info (held pre n ks c (is ++ d :: rest)) (length pre) f = Some (held pre n ks c (is ++ f d :: rest)).
  Proof.
    intros L. unfold lset_info, held. cbn [l_info l_ptrs l_cur]. unfold rd. rewrite lookup_app_r by lia. rewrite L, Nat.sub_diag. cbn.
    rewrite wr_Some by (rewrite app_length; cbn; lia). cbn. rewrite insert_app_r_alt by lia. rewrite L, Nat.sub_diag. done.
  Qed.
  Lemma held_node pre n ks c is f : lset_node (held pre n ks c is) (length pre) f = Some (held pre (f n) ks c is).
  Proof.
    unfold lset_node, held, upd. cbn [l_info l_ptrs l_cur ra cache]. unfold rd. rewrite lookup_app_r by lia. rewrite Nat.sub_diag. cbn.
    rewrite wr_Some by (rewrite app_length; cbn; lia). cbn. rewrite insert_app_r_alt by lia. rewrite Nat.sub_diag. done.
  Qed.

  Lemma attr_ok pre n ks c is d rest id v : length is = length pre ->
    attr_action id v (held pre n ks c (is ++ d :: rest)) =
    Some (held pre (attr_node (id, v) n) ks c (is ++ attr_info (id, v) d :: rest)).
  Proof.
    intros L. unfold attr_action, attr_node, attr_info. cbn [fst snd]. change (l_cur (held pre n ks c (is ++ d :: rest))) with (length pre).
    repeat case_decide; try done; rewrite ?held_node; cbn [mbind option_bind]; try done.
    cbn [held l_cur]. by apply held_info.
  Qed.
  Lemma cast_ok pre n ks c is d rest ty : length is = length pre ->
    cast_action ktype ty (held pre n ks c (is ++ d :: rest)) =
    if decide (ty = txt_void) then Some (held pre n ks c (is ++ d :: rest))
    else if ktype ty then Some (held pre n ks c (is ++ cast_info (Some ty) d :: rest)) else None.
  Proof.
    intros L. unfold cast_action, cast_info. cbn [held l_cur]. case_decide; [done|]. destruct (ktype ty); [|done]. by apply held_info.
  Qed.

  Lemma cpop_ok pre n0 ks0 pre' n a ks c is :
    (forall t, pre' ++ table cfin (length pre) (length pre') 0 t = opened_ns cfin pre n0 (ks0 ++ [t])) ->
    length pre' = length pre + S (dsizes ks0) ->
    n = cfin a (length pre') (blank (length pre) 0 (match ks with [] => 0 | _ => S (length pre') end)) ->
    length pre' <= c -> c < length pre' + S (dsizes ks) ->
    lpop (held pre' n ks c is) = Some (copened pre n0 (ks0 ++ [Doc a ks]) c is) /\
    cached (length pre) (ks0 ++ [Doc a ks]) c.
  Proof.
    intros E L O C1 C2. split.
    - unfold lpop, held. cbn [l_ptrs l_info l_cur ra]. unfold rd. rewrite lookup_app_r, Nat.sub_diag by lia. cbn [lookup list_lookup mbind option_bind].
      rewrite O, fin_parent. cbn [blank parent]. unfold opened. do 3 f_equal. rewrite <- E, table_eq. done.
    - intros vs u Eu. apply app_inj_2 in Eu as [<- [= <-]]; [|done]. rewrite dsizes_app, dsizes_one. cbn. unfold dsizes in *. lia.
  Qed.

  Lemma own_blank k p (ks : list cdoc) : k <> 0 -> own k ks (blank p 0 0) = blank p 0 (match ks with [] => 0 | _ => S k end).
  Proof. destruct k; [done|]. by destruct ks. Qed.

  Lemma cached_size k (ks : list cdoc) t t' c : dsize t = dsize t' -> cached k (ks ++ [t]) c -> cached k (ks ++ [t']) c.
  Proof.
    intros E C vs u Eu. apply app_inj_2 in Eu as [<- [= <-]]; [|done]. destruct (C ks t eq_refl) as [C1 C2].
    rewrite dsizes_app, dsizes_one in *. lia.
  Qed.
  Lemma last_range k (us : list cdoc) c : us <> [] -> cached k us c -> k <= c /\ c < k + S (dsizes us).
  Proof. intros N C. destruct (exists_last N) as (vs & u & ->). destruct (C vs u eq_refl). lia. Qed.

  Lemma tables_rename p j nx ks nm t : tables cfin p j nx (ks ++ [named nm t]) = tables cfin p j nx (ks ++ [t]).
  Proof. rewrite !tables_snoc. f_equal. destruct t as [a vs]. cbn [named]. by rewrite !table_eq. Qed.

  (** The action naming the last child. *)
  Lemma cname_last_ok pre n0 ks t c is nm : length pre <> 0 -> cached (length pre) (ks ++ [t]) c -> length is = length pre + S (dsizes ks) ->
    dname t = None ->
    cname_last known nm (copened pre n0 (ks ++ [t]) c (is ++ dinfos cinf t)) =
    if known (dtype t) nm then Some (copened pre n0 (ks ++ [named nm t]) (length pre + S (dsizes ks)) (is ++ dinfos cinf (named nm t))) else None.
  Proof.
    intros Z C L Dn. unfold cname_last, llast, opened. cbn [l_ptrs l_info l_cur].
    rewrite (last_child_some cfin fin_next fin_parent) by done. cbn [mbind option_bind fst snd Nat.eqb Nat.add l_info].
    unfold rd at 1. rewrite lookup_app_r by lia.
    replace (S (length pre + dsizes ks)) with (length is) by lia. rewrite Nat.sub_diag. destruct t as [a vs]. cbn [dname] in Dn.
    cbn [dinfos lookup list_lookup mbind option_bind dtype]. replace (cinf a) with (cbody a) by (unfold cinf; by rewrite Dn). destruct (known _ nm); [|done].
    unfold lset_info. cbn [l_info l_ptrs l_cur]. unfold rd. rewrite lookup_app_r by lia. rewrite Nat.sub_diag. cbn [lookup list_lookup mbind option_bind].
    rewrite wr_Some by (rewrite app_length; cbn; lia). cbn [mbind option_bind]. do 3 f_equal.
    - unfold opened_ns. rewrite <- (tables_rename _ _ _ _ nm). cbn [named]. do 2 f_equal. unfold own. destruct (length pre); [done|]. by destruct ks.
    - lia.
    - rewrite insert_app_r_alt by lia. rewrite Nat.sub_diag. cbn. done.
  Qed.

  (** ** Documents are accepted *)
  Notation D := (cderives known ktype wrapv e).
  Definition accepts (t : cdoc) : Prop := forall pre n0 ks c is rest,
    first_child n0 = 0 -> cached (length pre) ks c -> length pre <> 0 \/ ks = [] -> length is = length pre + S (dsizes ks) ->
    exists c', D NCinit (dtoks t ++ rest) (copened pre n0 ks c is) rest
      (copened pre n0 (ks ++ [anon t]) c' (is ++ dinfos cinf (anon t))) /\ cached (length pre) (ks ++ [anon t]) c'.

  Lemma accept_elem t : accepts t -> cname_ok t ->
    forall pre n0 ks c is rest, first_child n0 = 0 -> cached (length pre) ks c -> length pre <> 0 -> length is = length pre + S (dsizes ks) ->
    exists c', D NElem (etoks t ++ rest) (copened pre n0 ks c is) rest
      (copened pre n0 (ks ++ [t]) c' (is ++ dinfos cinf t)) /\ cached (length pre) (ks ++ [t]) c'.
  Proof.
    intros Ac N pre n0 ks c is rest Fc C Z L. destruct (Ac pre n0 ks c is rest Fc C (or_introl Z) L) as (c' & X & C').
    unfold etoks. destruct N as [N|(nm & N & K)]; rewrite N; cbn [nametoks app].
    - rewrite (anon_id t N) in X, C'. exists c'. split; [by constructor|done].
    - exists (length pre + S (dsizes ks)). split.
      + econstructor; [exact X|].
        rewrite cname_last_ok; [|done..|by destruct t]. rewrite dtype_anon, K.
        by rewrite named_anon, (named_id nm t) by done.
      + replace (length pre + S (dsizes ks)) with (S (length pre) + dsizes ks) by lia. apply cached_last.
  Qed.

  Lemma accept_list tr ts : (tr = true -> ts <> []) -> Forall accepts ts -> Forall cname_ok ts ->
    forall pre n0 ks c is rest, first_child n0 = 0 -> cached (length pre) ks c -> length pre <> 0 -> length is = length pre + S (dsizes ks) ->
    exists c', D NList (ltoks (map etoks ts) tr ++ rest) (copened pre n0 ks c is) rest
      (copened pre n0 (ks ++ ts) c' (is ++ concat (map (dinfos cinf) ts))) /\ cached (length pre) (ks ++ ts) c'.
  Proof.
    revert tr. induction ts as [|t ts IH]; intros tr Tr Ac N pre n0 ks c is rest Fc C Z L.
    { exists c. cbn. rewrite !app_nil_r. split; [constructor|done]. }
    apply Forall_cons in Ac as [At As], N as [Nt Ns].
    destruct ts as [|t' ts].
    - destruct tr.
      + destruct (accept_elem t At Nt pre n0 ks c is (CtComma :: rest) Fc C Z L) as (c' & X & C').
        exists c'. cbn [map ltoks concat]. rewrite app_nil_r, <- app_assoc. split; [|done]. eapply CD_list; [exact X|]. constructor.
      + destruct (accept_elem t At Nt pre n0 ks c is rest Fc C Z L) as (c' & X & C').
        exists c'. cbn [map ltoks concat]. rewrite !app_nil_r. split; [|done]. by apply CD_list_one.
    - destruct (accept_elem t At Nt pre n0 ks c is (CtComma :: ltoks (map etoks (t' :: ts)) tr ++ rest) Fc C Z L) as (c1 & X1 & C1).
      destruct (IH tr ltac:(done) As Ns pre n0 (ks ++ [t]) c1 (is ++ dinfos cinf t) rest Fc C1 Z) as (c' & X & C').
      { rewrite app_length, dinfos_length, dsizes_app, dsizes_one. lia. }
      exists c'. rewrite <- !app_assoc in X. cbn [app] in X. rewrite <- app_assoc in C'. split; [|done].
      cbn [map ltoks] in *. rewrite <- app_assoc. cbn [app concat]. eapply CD_list; [exact X1|]. exact X.
  Qed.

  (** The value, the cast and the attributes of the open node. *)
  Lemma accept_value pre p v ts is rest : length pre <> 0 -> length is = length pre -> Forall accepts ts ->
    cgood (CPay None [] None v) ts ->
    exists c', D NValue (vtoks v (map etoks ts) ++ rest) (copened pre (blank p 0 0) [] (length pre) (is ++ [cinfo0])) rest
      (held pre (own (length pre) ts (blank p 0 0)) ts c' (is ++ val_info v :: concat (map (dinfos cinf) ts))) /\
      length pre <= c' /\ c' < length pre + S (dsizes ts).
  Proof.
    intros Z L Ac [_ G]. cbn [d_val] in G. destruct v as [tr|s| |s|tx x]; cbn [vtoks val_info].
    - destruct G as [Tr N].
      destruct (accept_list tr ts Tr Ac N pre (blank p 0 0) [] (length pre) (is ++ [cinfo0]) (CtRBrace :: rest)) as (c' & X & C'); [done|apply cached_nil|done|rewrite app_length; cbn; lia|].
      destruct ts as [|t ts].
      + exists (length pre). cbn. split; [|lia]. constructor. constructor.
      + exists c'. rewrite <- app_assoc in X. cbn [app] in X |- *. rewrite <- app_assoc. cbn [app]. split; [constructor; exact X|].
        apply last_range; done.
    - destruct G as [-> [v Hv]]. exists (length pre). split; [|cbn; lia]. rewrite Hv. cbn. econstructor; [exact Hv|]. rewrite held_opened. by apply held_info.
    - subst ts. exists (length pre). split; [|cbn; lia]. cbn. constructor. rewrite held_opened. by apply held_info.
    - destruct G as [-> [v Hv]]. exists (length pre). split; [|cbn; lia]. rewrite Hv. cbn. econstructor; [exact Hv|]. rewrite held_opened. by apply held_info.
    - destruct G as (-> & Ph & v & Ev & Av). exists (length pre). split; [|cbn; lia]. rewrite Ev. cbn. econstructor; [done..|]. rewrite held_opened. by apply held_info.
  Qed.

  Lemma accept t : good t -> accepts t.
  Proof.
    induction t as [a ts IH] using doc_ind'. rewrite doc_all_eq. intros [G Gs].
    assert (Forall accepts ts) as Ac.
    { clear G. induction IH as [|t ts Ht _ IH]; [done|]. apply Forall_cons in Gs as [Gt Gs]. constructor; [by apply Ht|by apply IH]. }
    intros pre n0 ks c is rest Fc C Z L.
    destruct (push_ok cfin fin_next fin_parent cinfo0 pre n0 ks c is Fc C Z) as (pre' & L' & Ep & K).
    assert (length pre' <> 0) as Z' by lia.
    destruct a as [nm ats ca v]. cbn [anon d_attrs d_cast d_val].
    destruct (accept_value pre' (length pre) v ts is rest Z' ltac:(lia) Ac) as (c' & X & C1 & C2).
    { destruct G as [_ G]. by split. }
    set (n1 := own (length pre') ts (blank (length pre) 0 0)) in *.
    assert (D NCasted (casttoks ca ++ vtoks v (map etoks ts) ++ rest) (copened pre' (blank (length pre) 0 0) [] (length pre') (is ++ [cinfo0])) rest
      (held pre' n1 ts c' (is ++ cast_info ca (val_info v) :: concat (map (dinfos cinf) ts)))) as Y.
    { destruct ca as [ty|]; cbn [casttoks app]; [|by constructor]. destruct G as [G _]. cbn in G.
      eapply CD_cast; [exact X|]. rewrite cast_ok by lia. unfold cast_info. case_decide; [done|]. by destruct G as [?| ->]. }
    assert (D NStmt (atoks ats ++ casttoks ca ++ vtoks v (map etoks ts) ++ rest) (copened pre' (blank (length pre) 0 0) [] (length pre') (is ++ [cinfo0])) rest
      (held pre' (foldr attr_node n1 ats) ts c' (is ++ foldr attr_info (cast_info ca (val_info v)) ats :: concat (map (dinfos cinf) ts)))) as W.
    { clear G. induction ats as [|[id av] ats IHa]; cbn [atoks map app foldr fst snd]; [by constructor|].
      eapply CD_attr; [exact IHa|]. apply attr_ok. lia. }
    destruct (cpop_ok pre n0 ks pre' (foldr attr_node n1 ats) (CPay None ats ca v) ts c' (is ++ dinfos cinf (Doc (CPay None ats ca v) ts)) K L') as [P C']; [|done..|].
    { unfold n1, cfin. cbn [d_attrs]. by rewrite own_blank by done. }
    exists c'. split; [|exact C']. rewrite dtoks_eq. cbn [d_attrs d_cast d_val]. rewrite <- !app_assoc. econstructor; [exact Ep|exact W|exact P].
  Qed.

  (** ** Nothing else is accepted *)
  Definition explains (x : cnt) (ts : list ctok) (s : lst cinfo) (ts' : list ctok) (s' : lst cinfo) : Prop :=
    match x with
    | NCinit => forall pre n0 ks c is, s = copened pre n0 ks c is -> first_child n0 = 0 -> cached (length pre) ks c ->
        length pre <> 0 \/ ks = [] -> length is = length pre + S (dsizes ks) ->
        exists t c', good t /\ dname t = None /\ ts = dtoks t ++ ts' /\
          s' = copened pre n0 (ks ++ [t]) c' (is ++ dinfos cinf t) /\ cached (length pre) (ks ++ [t]) c'
    | NElem => forall pre n0 ks c is, s = copened pre n0 ks c is -> first_child n0 = 0 -> cached (length pre) ks c ->
        length pre <> 0 -> length is = length pre + S (dsizes ks) ->
        exists t c', good t /\ cname_ok t /\ ts = etoks t ++ ts' /\
          s' = copened pre n0 (ks ++ [t]) c' (is ++ dinfos cinf t) /\ cached (length pre) (ks ++ [t]) c'
    | NList => forall pre n0 ks c is, s = copened pre n0 ks c is -> first_child n0 = 0 -> cached (length pre) ks c ->
        length pre <> 0 -> length is = length pre + S (dsizes ks) ->
        exists us tr c', (tr = true -> us <> []) /\ Forall good us /\ Forall cname_ok us /\ ts = ltoks (map etoks us) tr ++ ts' /\
          s' = copened pre n0 (ks ++ us) c' (is ++ concat (map (dinfos cinf) us)) /\ cached (length pre) (ks ++ us) c' /\ (us = [] -> c' = c)
    | _ => forall pre p is, s = copened pre (blank p 0 0) [] (length pre) (is ++ [cinfo0]) -> length pre <> 0 -> length is = length pre ->
        exists a us c', good (Doc a us) /\ dname (Doc a us) = None /\ ts = dtoks (Doc a us) ++ ts' /\
          s' = held pre (cfin a (length pre) (own (length pre) us (blank p 0 0))) us c' (is ++ dinfos cinf (Doc a us)) /\
          length pre <= c' /\ c' < length pre + S (dsizes us) /\
          match x with NStmt => True | NCasted => d_attrs a = [] | _ => d_attrs a = [] /\ d_cast a = None end
    end.

  Lemma ltoks_cons x l tr : l <> [] -> ltoks (x :: l) tr = x ++ CtComma :: ltoks l tr.
  Proof. by destruct l. Qed.

  Lemma explain x ts s ts' s' : D x ts s ts' s' -> explains x ts s ts' s'.
  Proof.
    induction 1 as [ts s s1 ts' s2 s3 Ep X IH Eo|ts s ts' s' X IH|id v ts s ts' s1 s' X IH Ea|ts s ts' s' X IH|ty ts s ts' s1 s' X IH Ec
      |ts s ts' s' X IH|tx x v ts s s' Ph Ev Av Es|c v ts s s' Ev Es|ts s s' Es|c v ts s s' Ev Es
      |ts s|ts s ts' s' X IH|ts s ts1 s1 ts' s' X1 IH1 X2 IH2|ts s ts' s' X IH|nm ts s ts' s1 s' X IH En]; cbn [explains] in *.
    - intros pre n0 ks c is -> Fc C Z L. destruct (push_ok cfin fin_next fin_parent cinfo0 pre n0 ks c is Fc C Z) as (pre' & L' & E & K).
      rewrite Ep in E. injection E as ->.
      destruct (IH pre' (length pre) is eq_refl) as (a & us & c' & G & N & -> & -> & C1 & C2 & _); [lia|lia|].
      destruct (cpop_ok pre n0 ks pre' (cfin a (length pre') (own (length pre') us (blank (length pre) 0 0))) a us c' (is ++ dinfos cinf (Doc a us)) K L') as [P C']; [|done..|].
      { by rewrite own_blank by lia. }
      exists (Doc a us), c'. rewrite Eo in P. injection P as ->. done.
    - intros pre p is -> Z L. destruct (IH pre p is eq_refl Z L) as (a & us & c' & G & N & -> & -> & C1 & C2 & Ha).
      exists a, us, c'. done.
    - intros pre p is -> Z L. destruct (IH pre p is eq_refl Z L) as (a & us & c' & G & N & -> & -> & C1 & C2 & _).
      cbn [dinfos] in Ea. rewrite attr_ok in Ea by done. injection Ea as <-.
      exists (CPay None ((id, v) :: d_attrs a) (d_cast a) (d_val a)), us, c'. rewrite doc_all_eq in *. split; [done|]. split; [done|].
      split; [done|]. split; [|done]. f_equal. cbn [dinfos]. do 2 f_equal. cbn [dname] in N. unfold cinf. rewrite N. done.
    - intros pre p is -> Z L. destruct (IH pre p is eq_refl Z L) as (a & us & c' & G & N & -> & -> & C1 & C2 & Ha & _).
      exists a, us, c'. done.
    - intros pre p is -> Z L. destruct (IH pre p is eq_refl Z L) as (a & us & c' & G & N & -> & -> & C1 & C2 & Ha & Hc).
      cbn [dinfos] in Ec. rewrite cast_ok in Ec by done. destruct a as [nm ats ca v]. cbn in N, Ha, Hc. subst nm ats ca.
      rewrite doc_all_eq in *. destruct G as [[_ G] Gs].
      exists (CPay None [] (Some ty) v), us, c'. cbn [cinf cbody d_name d_attrs d_cast d_val foldr cast_info] in Ec.
      rewrite doc_all_eq. case_decide as E.
      + injection Ec as <-. split; [split; [split; [by left|done]|done]|]. split; [done|]. split; [done|]. split; [|done].
        unfold dinfos. unfold cinf, cbody. cbn. by rewrite decide_True by done.
      + destruct (ktype ty) eqn:Kt; [|done]. injection Ec as <-. split; [split; [split; [by right|done]|done]|]. split; [done|]. split; [done|]. split; [|done].
        unfold dinfos. unfold cinf, cbody. cbn. by rewrite decide_False by done.
    - intros pre p is -> Z L. destruct (IH pre (blank p 0 0) [] (length pre) (is ++ [cinfo0]) eq_refl) as (us & tr & c' & Tr & G & N & -> & -> & C' & Cn); [done|apply cached_nil|done|rewrite app_length; cbn; lia|].
      exists (CPay None [] None (DBlock tr)), us, c'. rewrite doc_all_eq, dtoks_eq. cbn [d_val d_attrs d_cast atoks casttoks map app vtoks].
      split; [split; [split; [done|by split]|done]|]. split; [done|]. rewrite <- app_assoc. cbn [app]. split; [done|]. rewrite <- app_assoc. split; [done|].
      assert (length pre <= c' /\ c' < length pre + S (dsizes us)) as [??]; [|done].
      destruct us as [|u us]; [rewrite Cn by done; cbn; lia|]. by apply last_range.
    - intros pre p is -> Z L. change (l_cur (copened pre (blank p 0 0) [] (length pre) (is ++ [cinfo0]))) with (length pre) in Es. rewrite held_opened, held_info in Es by done. injection Es as <-.
      exists (CPay None [] None (DExpr tx x)), [], (length pre). cbn. unfold cinf, cbody. cbn. rewrite Ev. cbn.
      split; [split; [|done]; split; [done|]; split; [done|]; split; [done|by exists v]|]. split; [done|]. split; [done|]. split; [done|]. split; [lia|]. split; [lia|done].
    - intros pre p is -> Z L. change (l_cur (copened pre (blank p 0 0) [] (length pre) (is ++ [cinfo0]))) with (length pre) in Es. rewrite held_opened, held_info in Es by done. injection Es as <-.
      exists (CPay None [] None (DStr c)), [], (length pre). cbn. unfold cinf, cbody. cbn. rewrite Ev. cbn.
      split; [split; [|done]; split; [done|]; split; [done|by exists v]|]. split; [done|]. split; [done|]. split; [done|]. split; [lia|]. split; [lia|done].
    - intros pre p is -> Z L. change (l_cur (copened pre (blank p 0 0) [] (length pre) (is ++ [cinfo0]))) with (length pre) in Es. rewrite held_opened, held_info in Es by done. injection Es as <-.
      exists (CPay None [] None DNull), [], (length pre). cbn. unfold cinf, cbody. cbn.
      split; [done|]. split; [done|]. split; [done|]. split; [done|]. split; [lia|]. split; [lia|done].
    - intros pre p is -> Z L. change (l_cur (copened pre (blank p 0 0) [] (length pre) (is ++ [cinfo0]))) with (length pre) in Es. rewrite held_opened, held_info in Es by done. injection Es as <-.
      exists (CPay None [] None (DChar c)), [], (length pre). cbn. unfold cinf, cbody. cbn. rewrite Ev. cbn.
      split; [split; [|done]; split; [done|]; split; [done|by exists v]|]. split; [done|]. split; [done|]. split; [done|]. split; [lia|]. split; [lia|done].
    - intros pre n0 ks c is -> Fc C Z L. exists [], false, c. cbn. rewrite !app_nil_r. done.
    - intros pre n0 ks c is -> Fc C Z L. destruct (IH pre n0 ks c is eq_refl Fc C Z L) as (t & c' & G & N & -> & -> & C').
      exists [t], false, c'. cbn. rewrite !app_nil_r. split; [done|]. split; [by constructor|]. split; [by constructor|]. done.
    - intros pre n0 ks c is -> Fc C Z L. destruct (IH1 pre n0 ks c is eq_refl Fc C Z L) as (t & c1 & G1 & N1 & -> & -> & C1).
      destruct (IH2 pre n0 (ks ++ [t]) c1 (is ++ dinfos cinf t) eq_refl Fc C1 Z) as (us & tr & c' & Tr & G & N & -> & -> & C' & _).
      { rewrite app_length, dinfos_length, dsizes_app, dsizes_one. lia. }
      destruct us as [|u us].
      + exists [t], true, c'. destruct tr; [by destruct Tr|]. cbn [map ltoks app concat] in *. rewrite !app_nil_r in *. rewrite <- app_assoc.
        split; [done|]. split; [by constructor|]. split; [by constructor|]. done.
      + exists (t :: u :: us), tr, c'. rewrite <- !app_assoc in *. cbn [app map concat] in *. split; [done|]. split; [by constructor|]. split; [by constructor|].
        split; [|done]. rewrite (ltoks_cons (etoks t)) by done. by rewrite <- app_assoc.
    - intros pre n0 ks c is -> Fc C Z L. destruct (IH pre n0 ks c is eq_refl Fc C (or_introl Z) L) as (t & c' & G & N & -> & -> & C').
      exists t, c'. split; [done|]. split; [by left|]. unfold etoks. rewrite N. done.
    - intros pre n0 ks c is -> Fc C Z L. destruct (IH pre n0 ks c is eq_refl Fc C (or_introl Z) L) as (t & c1 & G & N & -> & -> & C1).
      rewrite cname_last_ok in En by done. destruct (known (dtype t) nm) eqn:Kn; [|done]. injection En as <-.
      exists (named nm t), (length pre + S (dsizes ks)). split; [|split; [|split; [|split; [done|]]]].
      + destruct t as [a us]. cbn [named]. rewrite doc_all_eq in *. done.
      + right. exists nm. split; [by destruct t|]. by destruct t.
      + unfold etoks. destruct t as [a us]. cbn [dname named d_name nametoks app]. rewrite !dtoks_eq. done.
      + replace (length pre + S (dsizes ks)) with (S (length pre) + dsizes ks) by lia. apply cached_last.
  Qed.

  (** ** The grammar is unambiguous *)
  Definition follow (r : list (@ctok F)) : Prop := match r with [] | CtComma :: _ | CtRBrace :: _ => True | _ => False end.
  Definition unamb (t : cdoc) : Prop := forall t' r r', good t -> good t' -> dname t = dname t' -> follow r -> follow r' ->
    dtoks t ++ r = dtoks t' ++ r' -> t = t' /\ r = r'.

  Lemma expr_split tx tx' r r' : Forall (fun t => etok t = true) tx -> Forall (fun t => etok t = true) tx' -> follow r -> follow r' ->
    tx ++ r = tx' ++ r' -> tx = tx' /\ r = r'.
  Proof.
    intros H. revert tx'. induction H as [|x tx Hx _ IH]; intros tx' H' Fr Fr' E.
    - destruct tx' as [|y tx']; [done|]. cbn in E. subst r. apply Forall_cons in H' as [H' _]. by destruct y.
    - destruct tx' as [|y tx']; cbn in E; [subst r'; by destruct x|]. injection E as -> E. apply Forall_cons in H' as [_ H'].
      destruct (IH tx' H' Fr Fr' E) as [-> ->]. done.
  Qed.

  Lemma atoks_split l l' r r' : (match r with CtAttr _ _ :: _ => False | _ => True end) -> (match r' with CtAttr _ _ :: _ => False | _ => True end) ->
    atoks l ++ r = atoks l' ++ r' -> l = l' /\ r = r'.
  Proof.
    revert l'. induction l as [|[i v] l IH]; intros [|[i' v'] l'] H H' E; cbn in E; [done|by subst r|by subst r'|].
    injection E as -> -> E. destruct (IH l' H H' E) as [-> ->]. done.
  Qed.

  (** The first token of a value. *)
  Definition vstart (x : @ctok F) : bool :=
    match x with CtLBrace | CtStr _ | CtNull | CtChar _ => true | _ => etok x end.
  Lemma vtoks_head a ks l : cgood a ks -> exists x m, vtoks (d_val a) l = x :: m /\ vstart x = true.
  Proof.
    intros [_ G]. destruct (d_val a) as [tr|s| |s|tx x]; cbn; try (eexists _, _; by split).
    destruct G as (_ & Ph & _). apply phrase_toks in Ph as [Ne Ph]. destruct tx as [|y tx]; [done|]. apply Forall_cons in Ph as [Hy _].
    exists y, tx. split; [done|]. by destruct y.
  Qed.

  Definition dstart (x : @ctok F) : bool :=
    match x with CtAttr _ _ | CtCast _ => true | _ => vstart x end.
  Lemma dtoks_head t : good t -> exists x m, dtoks t = x :: m /\ dstart x = true.
  Proof.
    destruct t as [a ks]. rewrite doc_all_eq, dtoks_eq. intros [G _]. destruct (vtoks_head a ks (map etoks ks) G) as (x & m & E & V).
    destruct (d_attrs a) as [|[i v] ats]; cbn; [|eexists _, _; by split].
    destruct (d_cast a) as [ty|]; cbn; [eexists _, _; by split|]. exists x, m. split; [done|]. by destruct x.
  Qed.
  Lemma etoks_head t : good t -> exists x m, etoks t = x :: m /\ x <> CtRBrace.
  Proof.
    intros G. unfold etoks. destruct (dname t); cbn; [eexists _, _; by split|].
    destruct (dtoks_head t G) as (x & m & E & V). exists x, m. split; [done|]. intros ->. done.
  Qed.

  Lemma ltoks_head x l tr : exists m, ltoks (x :: l) tr = x ++ m.
  Proof. destruct l; cbn; eauto. Qed.

  Lemma unamb_list ts : forall ts' tr tr' r r', (tr = true -> ts <> []) -> (tr' = true -> ts' <> []) -> Forall good ts -> Forall good ts' ->
    Forall (fun t => forall t' r r', t' ∈ ts' -> follow r -> follow r' -> etoks t ++ r = etoks t' ++ r' -> t = t' /\ r = r') ts ->
    ltoks (map etoks ts) tr ++ CtRBrace :: r = ltoks (map etoks ts') tr' ++ CtRBrace :: r' -> ts = ts' /\ tr = tr' /\ r = r'.
  Proof.
    induction ts as [|t ts IH]; intros ts' tr tr' r r' Tr Tr' G G' U E.
    - destruct ts' as [|t' ts'].
      + cbn in E. injection E as ->. destruct tr; [by destruct Tr|]. destruct tr'; [by destruct Tr'|]. done.
      + apply Forall_cons in G' as [G' _]. destruct (etoks_head t' G') as (x & l & Ex & Nx). cbn [map] in E.
        destruct (ltoks_head (etoks t') (map etoks ts') tr') as [m Em]. rewrite Em, Ex in E. cbn in E. injection E as E _. done.
    - apply Forall_cons in U as [Ut Us]. destruct ts' as [|t' ts'].
      + apply Forall_cons in G as [G _]. destruct (etoks_head t G) as (x & l & Ex & Nx). cbn [map] in E.
        destruct (ltoks_head (etoks t) (map etoks ts) tr) as [m Em]. rewrite Em, Ex in E. cbn in E. injection E as E _. done.
      + apply Forall_cons in G as [Gt Gs], G' as [Gt' Gs'].
        assert (Forall (fun t => forall t' r r', t' ∈ ts' -> follow r -> follow r' -> etoks t ++ r = etoks t' ++ r' -> t = t' /\ r = r') ts) as Us'.
        { eapply Forall_impl; [exact Us|]. cbn. intros u Hu u' s s' I. apply Hu. by constructor. }
        assert (forall s, ltoks (map etoks ts) tr ++ CtRBrace :: s <> [] /\ True) as _ by (intros s; split; [by destruct (ltoks (map etoks ts) tr)|done]).
        specialize (IH ts'). cbn [map] in E. destruct ts as [|u us], ts' as [|u' us'].
        * cbn [map ltoks] in E. rewrite <- !app_assoc in E. apply Ut in E as [-> E]; [|constructor|by destruct tr|by destruct tr'].
          destruct tr, tr'; cbn in E; try discriminate; by injection E as ->.
        * cbn [map] in E. rewrite (ltoks_cons (etoks t')) in E by done. change (ltoks [etoks t] tr) with (etoks t ++ (if tr then [CtComma] else [])) in E. rewrite <- !app_assoc in E.
          apply Ut in E as [_ E]; [|constructor|by destruct tr|done]. destruct tr; [|done].
          apply Forall_cons in Gs' as [Gu' _]. destruct (etoks_head u' Gu') as (x & l & Ex & Nx).
          destruct (ltoks_head (etoks u') (map etoks us') tr') as [m Em]. rewrite Em, Ex in E. cbn in E. injection E as E _. done.
        * cbn [map] in E. rewrite (ltoks_cons (etoks t)) in E by done. change (ltoks [etoks t'] tr') with (etoks t' ++ (if tr' then [CtComma] else [])) in E. rewrite <- !app_assoc in E.
          apply Ut in E as [_ E]; [|constructor|done|by destruct tr']. destruct tr'; [|done].
          apply Forall_cons in Gs as [Gu _]. destruct (etoks_head u Gu) as (x & l & Ex & Nx).
          destruct (ltoks_head (etoks u) (map etoks us) tr) as [m Em]. rewrite Em, Ex in E. cbn in E. injection E as E _. done.
        * cbn [map] in E. rewrite (ltoks_cons (etoks t)), (ltoks_cons (etoks t')) in E by done. rewrite <- !app_assoc in E. cbn [app] in E.
          apply Ut in E as [-> E]; [|constructor|done|done]. injection E as E.
          apply (IH tr tr') in E as (-> & -> & ->); done.
  Qed.

  Lemma unambiguous t : unamb t.
  Proof.
    induction t as [a ts IH] using doc_ind'. intros [b us] r r' G G' N Fr Fr' E. rewrite !dtoks_eq in E. rewrite doc_all_eq in *.
    destruct G as [G Gs], G' as [G' Gs']. destruct a as [nm ats ca v], b as [nm' ats' ca' v']. cbn [dname d_name] in N. subst nm'.
    cbn [d_attrs d_cast d_val] in E. rewrite <- !app_assoc in E.
    destruct (vtoks_head _ ts (map etoks ts) G) as (x & m & Ex & Vx), (vtoks_head _ us (map etoks us) G') as (x' & m' & Ex' & Vx').
    cbn [d_val] in Ex, Ex'.
    apply atoks_split in E as [-> E].
    2: { destruct ca; [done|]. rewrite Ex. by destruct x. }
    2: { destruct ca'; [done|]. rewrite Ex'. by destruct x'. }
    assert (ca = ca' /\ vtoks v (map etoks ts) ++ r = vtoks v' (map etoks us) ++ r') as [-> E'].
    { rewrite Ex, Ex' in E |- *. destruct ca as [ty|], ca' as [ty'|]; cbn in E |- *; [by split; congruence| | |done].
      - injection E as <- _. done.
      - injection E as -> _. done. }
    clear E. rename E' into E. destruct G as [_ G], G' as [_ G']. cbn [d_val] in G, G'.
    destruct v as [tr|s| |s|tx x0], v' as [tr'|s'| |s'|tx' x0']; cbn [vtoks app] in *; try discriminate;
      try (exfalso; destruct G as (_ & Ph & _); apply phrase_toks in Ph as [Ne Ph]; destruct tx as [|y tx]; [done|];
           apply Forall_cons in Ph as [Hy _]; cbn [app] in E; injection E as -> _; discriminate);
      try (exfalso; destruct G' as (_ & Ph & _); apply phrase_toks in Ph as [Ne Ph]; destruct tx' as [|y tx']; [done|];
           apply Forall_cons in Ph as [Hy _]; cbn [app] in E; injection E as <- _; discriminate).
    - injection E as E. rewrite <- !app_assoc in E. cbn [app] in E. destruct G as [Tr Nt], G' as [Tr' Nt'].
      apply unamb_list in E as (-> & -> & ->); [done|done..|].
      apply Forall_forall. intros t I t' s s' I' Fs Fs' E'.
      rewrite Forall_forall in IH, Gs, Gs', Nt, Nt'. unfold etoks in E'.
      destruct (dtoks_head t (Gs t I)) as (y & l & Ey & Vy), (dtoks_head t' (Gs' t' I')) as (y' & l' & Ey' & Vy').
      destruct (dname t) as [n1|] eqn:D1, (dname t') as [n2|] eqn:D2; cbn [nametoks app] in E'.
      + injection E' as -> E'. apply (IH t I); [by apply Gs|by apply Gs'|congruence|done|done|done].
      + rewrite Ey' in E'. cbn in E'. injection E' as <- _. done.
      + rewrite Ey in E'. cbn in E'. injection E' as -> _. done.
      + apply (IH t I); [by apply Gs|by apply Gs'|congruence|done|done|done].
    - injection E as -> ->. destruct G as [-> _], G' as [-> _]. done.
    - injection E as ->. by subst.
    - injection E as -> ->. destruct G as [-> _], G' as [-> _]. done.
    - destruct G as (-> & Ph & _), G' as (-> & Ph' & _).
      apply expr_split in E as [-> ->]; [|by eapply phrase_toks..|done|done].
      by rewrite (phrase_det _ _ _ Ph Ph').
  Qed.
End Doc.
