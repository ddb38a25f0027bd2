(** The XML1 grammar and the documents it describes. *)
From Verif Require Import Base Ptrs NumStr Value Parse ParseProof Json Cinit DfsProof Xml.

Section Doc.
  Context {F : Type} `{FL : Floats F}.
  Context (known : list Z -> bool).

  Inductive xbody := XBEmpty (after : list Z) | XBFull (c after : list Z).
  Record xpay := XPay { x_tag : list Z; x_props : list (list Z * list Z); x_body : xbody }.
  Notation xdoc := (doc xpay).

  Definition x_after (b : xbody) : list Z := match b with XBEmpty w | XBFull _ w => w end.
  Definition x_value (b : xbody) : option (value F) := match b with XBEmpty _ => Some (VSubstr [0%Z] 0) | XBFull c _ => xml_value c end.

  (** The tokens of a document. *)
  Definition ptoks (l : list (list Z * list Z)) : list xtok := concat (map (fun p => [XtWs; XtId p.1; XtAssign; XtVal p.2]) l).
  Definition btoks (nm : list Z) (b : xbody) (ks : list (list xtok)) : list xtok :=
    match b with
    | XBEmpty w => [XtEmpty w]
    | XBFull c w => XtContent c :: concat ks ++ [XtClose nm; XtContent w]
    end.
  Fixpoint xtoks (t : xdoc) : list xtok :=
    match t with Doc a ks => XtOpen (x_tag a) :: ptoks (x_props a) ++ btoks (x_tag a) (x_body a) (map xtoks ks) end.
  Lemma xtoks_eq a ks : xtoks (Doc a ks) = XtOpen (x_tag a) :: ptoks (x_props a) ++ btoks (x_tag a) (x_body a) (map xtoks ks).
  Proof. reflexivity. Qed.
  Definition toptoks (ps : list (list Z * list Z)) (t : xdoc) : list xtok := XtDocOpen :: ptoks ps ++ XtDocClose :: xtoks t.

  (** Empty tags have nothing inside. *)
  Definition xshape (a : xpay) (ks : list xdoc) : Prop := match x_body a with XBEmpty _ => ks = [] | XBFull _ _ => True end.
  Notation shaped := (doc_all xshape).

  (** What the actions do for a document. *)
  Fixpoint props_run (l : list (list Z * list Z)) (s : lst cinfo) : option (lst (@cinfo F)) :=
    match l with
    | [] => Some s
    | p :: l => s1 ← prop_action p.1 p.2 s; props_run l s1
    end.
  Fixpoint xrun (t : xdoc) (s : lst cinfo) : option (lst (@cinfo F)) :=
    match t with
    | Doc a ks =>
      s1 ← lpush cinfo0 s; s2 ← props_run (x_props a) s1;
      s3 ← (fix go ks s := match ks with [] => Some s | k :: ks => s1 ← xrun k s; go ks s1 end) ks s2;
      v ← x_value (x_body a); close_tag known (x_tag a) (x_after (x_body a)) v s3
    end.
  Fixpoint xruns (ks : list xdoc) (s : lst cinfo) : option (lst (@cinfo F)) :=
    match ks with [] => Some s | k :: ks => s1 ← xrun k s; xruns ks s1 end.
  Lemma xrun_eq a ks s : xrun (Doc a ks) s =
    (s1 ← lpush cinfo0 s; s2 ← props_run (x_props a) s1; s3 ← xruns ks s2;
     v ← x_value (x_body a); close_tag known (x_tag a) (x_after (x_body a)) v s3).
  Proof. reflexivity. Qed.

  (** ** Derivations are runs *)
  Notation D := (xderives known).
  Definition xexplains (x : xnt) (ts : list xtok) (s : lst cinfo) (ts' : list xtok) (s' : lst cinfo) : Prop :=
    match x with
    | NXml => exists ps d, shaped d /\ ts = toptoks ps d ++ ts' /\ xrun d s = Some s'
    | NDocProps => s' = s /\ exists ps, ts = ptoks ps ++ ts'
    | NTag => exists d, shaped d /\ ts = xtoks d ++ ts' /\ xrun d s = Some s'
    | NNested => exists ds, Forall shaped ds /\ ts = concat (map xtoks ds) ++ ts' /\ xruns ds s = Some s'
    | NProps => exists ps, ts = ptoks ps ++ ts' /\ props_run ps s = Some s'
    end.

  Lemma xexplain x ts s ts' s' : D x ts s ts' s' -> xexplains x ts s ts' s'.
  Proof.
    induction 1 as [ts s ts1 s1 ts' s' X1 IH1 X2 IH2|ts s|id v ts s ts' s' X IH|nm ts s s1 w ts' s2 s' Ep X IH Ec
      |nm ts s s1 c ts1 s2 w ts' s3 v s' Ep X1 IH1 X2 IH2 Ev Ec|ts s|ts s ts1 s1 ts' s' X1 IH1 X2 IH2|ts s|id v ts s s1 ts' s' Ea X IH]; cbn [xexplains] in *.
    - destruct IH1 as [-> [ps ->]], IH2 as (d & Sh & -> & R). exists ps, d. split; [done|]. split; [|done].
      unfold toptoks. cbn [app]. by rewrite <- app_assoc.
    - split; [done|]. by exists [].
    - destruct IH as [-> [ps ->]]. split; [done|]. by exists ((id, v) :: ps).
    - destruct IH as (ps & -> & R). exists (Doc (XPay nm ps (XBEmpty w)) []). rewrite doc_all_eq. split; [by split|]. split.
      + rewrite xtoks_eq. cbn [x_tag x_props x_body btoks app]. by rewrite <- app_assoc.
      + rewrite xrun_eq, Ep. cbn [x_tag x_props x_body mbind option_bind]. rewrite R. cbn. done.
    - destruct IH1 as (ps & -> & R1), IH2 as (ds & Sh & -> & R2). exists (Doc (XPay nm ps (XBFull c w)) ds). rewrite doc_all_eq. split; [by split|]. split.
      + rewrite xtoks_eq. cbn [x_tag x_props x_body btoks app]. rewrite <- app_assoc. cbn [app]. by rewrite <- app_assoc.
      + rewrite xrun_eq, Ep. cbn [x_tag x_props x_body mbind option_bind]. rewrite R1. cbn [mbind option_bind]. rewrite R2. cbn [mbind option_bind x_value]. rewrite Ev. done.
    - by exists [].
    - destruct IH1 as (d & Sh & -> & R), IH2 as (ds & Shs & -> & Rs). exists (d :: ds). split; [by constructor|].
      split; [cbn; by rewrite <- app_assoc|]. cbn. by rewrite R.
    - by exists [].
    - destruct IH as (ps & -> & R). exists ((id, v) :: ps). split; [done|]. cbn. by rewrite Ea.
  Qed.

  Lemma xaccept_props ps rest : forall s s', props_run ps s = Some s' -> D NProps (ptoks ps ++ rest) s rest s'.
  Proof.
    induction ps as [|[id v] ps IH]; intros s s' R; cbn in R; [injection R as <-; constructor|].
    apply bind_Some in R as (s1 & E & R). econstructor; [exact E|]. by apply IH.
  Qed.
  Lemma xaccept_docprops ps rest (s : lst (@cinfo F)) : D NDocProps (ptoks ps ++ rest) s rest s.
  Proof. induction ps as [|[id v] ps IH]; [constructor|]. by constructor. Qed.

  Lemma xaccept t : shaped t -> forall s s' rest, xrun t s = Some s' -> D NTag (xtoks t ++ rest) s rest s'.
  Proof.
    induction t as [a ks IH] using doc_ind'. rewrite doc_all_eq. intros [Sh Shs] s s' rest. rewrite xrun_eq, xtoks_eq. intros R.
    apply bind_Some in R as (s1 & Ep & R). apply bind_Some in R as (s2 & R1 & R). apply bind_Some in R as (s3 & R2 & R). apply bind_Some in R as (v & Ev & Ec).
    cbn [app]. rewrite <- app_assoc. destruct a as [nm ps [w|c w]]; cbn [x_tag x_props x_body btoks x_after x_value] in *.
    - unfold xshape in Sh. cbn in Sh. subst ks. injection R2 as <-. injection Ev as <-. eapply XD_empty; [exact Ep|apply xaccept_props; exact R1|done].
    - cbn [app]. rewrite <- app_assoc. cbn [app]. eapply XD_full; [exact Ep|apply xaccept_props; exact R1| |exact Ev|exact Ec].  clear R1 Ec.
      revert s2 R2. induction IH as [|t ts Ht _ IH]; intros s2 R2; cbn in R2; [injection R2 as <-; constructor|].
      apply Forall_cons in Shs as [St Ss]. apply bind_Some in R2 as (s4 & E & R2). cbn [map concat]. rewrite <- app_assoc.
      eapply XD_nested; [by apply Ht|]. by apply IH.
  Qed.

  (** ** The grammar is unambiguous *)
  Lemma ptoks_split l l' r r' : (match r with XtWs :: _ => False | _ => True end) -> (match r' with XtWs :: _ => False | _ => True end) ->
    ptoks l ++ r = ptoks l' ++ r' -> l = l' /\ r = r'.
  Proof.
    revert l'. induction l as [|[i v] l IH]; intros [|[i' v'] l'] H H' E; cbn in E; [done|by subst r|by subst r'|].
    injection E as -> -> E. destruct (IH l' H H' E) as [-> ->]. done.
  Qed.

  Lemma xunambiguous t : forall t' r r', shaped t -> shaped t' -> xtoks t ++ r = xtoks t' ++ r' -> t = t' /\ r = r'.
  Proof.
    induction t as [a ts IH] using doc_ind'. intros [b us] r r'. rewrite !doc_all_eq, !xtoks_eq. intros [Sh Shs] [Sh' Shs'] E.
    cbn [app] in E. injection E as En E. rewrite <- !app_assoc in E.
    destruct a as [nm ps bd], b as [nm' ps' bd']. cbn [x_tag x_props x_body] in *. subst nm'.
    apply ptoks_split in E as [-> E]; [|by destruct bd|by destruct bd']. unfold xshape in Sh, Sh'. cbn in Sh, Sh'.
    destruct bd as [w|c w], bd' as [w'|c' w']; cbn [btoks app] in E; try discriminate.
    - injection E as -> ->. by subst.
    - injection E as -> E. rewrite <- !app_assoc in E. cbn [app] in E.
      assert (ts = us /\ w = w' /\ r = r') as (-> & -> & ->); [|done].
      revert us Shs' E. induction IH as [|t ts Ht _ IH]; intros us Shs' E.
      + destruct us as [|[b us'] us]; cbn in E; [by injection E as -> ->|]. discriminate.
      + destruct us as [|u us]; [destruct t as [b us']; cbn in E; discriminate|].
        apply Forall_cons in Shs as [St Ss], Shs' as [St' Ss']. cbn [map concat] in E. rewrite <- !app_assoc in E.
        apply Ht in E as [-> E]; [|done|done]. destruct (IH Ss us Ss' E) as (-> & -> & ->). done.
  Qed.

  (** ** What a run leaves in the table *)
  Definition prop_node (n : node) (p : list Z * list Z) : node :=
    let i := default 0 (load_idx p.2) in
    if decide (p.1 = txt_ref_idx) then set_idx i n
    else if decide (p.1 = txt_ref) then set_ref i n
    else if decide (p.1 = txt_ref_content) then set_ref i n else n.
  Definition prop_info (d : @cinfo F) (p : list Z * list Z) : cinfo :=
    if decide (p.1 = txt_ref_idx) then d
    else if decide (p.1 = txt_ref) then d
    else if decide (p.1 = txt_ref_content) then cset_cref d
    else if decide (p.1 = txt_isnull) then cset_isnull d else d.
  Definition prop_ok (p : list Z * list Z) : Prop := p.1 ∈ [txt_ref_idx; txt_ref; txt_ref_content] -> is_Some (load_idx p.2).
  Global Instance prop_ok_dec p : Decision (prop_ok p).
  Proof. unfold prop_ok. apply _. Defined.
  Definition xfin (a : xpay) (k : nat) (n : node) : node := foldl prop_node n (x_props a).
  Definition xinf (a : xpay) : cinfo :=
    cset_val (default VVoid (x_value (x_body a))) (cset_name (local_name (x_tag a)) (foldl prop_info cinfo0 (x_props a))).

  Definition xgood (a : xpay) (ks : list xdoc) : Prop :=
    xshape a ks /\ Forall prop_ok (x_props a) /\ known (local_name (x_tag a)) = true /\
    Forall (fun c => isspace c = true) (x_after (x_body a)) /\ is_Some (x_value (x_body a)).
  Notation good := (doc_all xgood).
  (** References have nothing inside. *)
  Definition xcalm (a : xpay) (ks : list xdoc) : Prop :=
    ks <> [] -> Forall (fun p => p.1 <> txt_ref /\ p.1 <> txt_ref_content) (x_props a).
  Notation calm := (doc_all xcalm).

  Lemma prop_next n p v : set_next (prop_node n p) v = prop_node (set_next n v) p.
  Proof. unfold prop_node. by repeat case_decide. Qed.
  Lemma prop_parent n p : parent (prop_node n p) = parent n.
  Proof. unfold prop_node. by repeat case_decide. Qed.
  Lemma xfin_next a k n v : set_next (xfin a k n) v = xfin a k (set_next n v).
  Proof. unfold xfin. revert n. induction (x_props a) as [|x l IH]; intros n; [done|]. cbn [foldl]. by rewrite IH, prop_next. Qed.
  Lemma xfin_parent a k n : parent (xfin a k n) = parent n.
  Proof. unfold xfin. revert n. induction (x_props a) as [|x l IH]; intros n; [done|]. cbn [foldl]. by rewrite IH, prop_parent. Qed.

  Notation xopened := (@opened xpay cinfo xfin).
  (** The state with the open node [n], having no children yet, or whatever. *)
  Definition xheld (pre : list node) (n : node) (post : list node) (c : nat) (is : list (@cinfo F)) : lst cinfo :=
    LSt (Ptrs (pre ++ n :: post) c) is (length pre).

  Lemma xheld_info pre n post c is d rest f : length is = length pre ->
    lset_info (xheld pre n post c (is ++ d :: rest)) (length pre) f = Some (xheld pre n post c (is ++ f d :: rest)).
  Proof.
    intros L. unfold lset_info, xheld. cbn [l_info l_ptrs l_cur]. unfold rd. rewrite lookup_app_r by lia. rewrite L, Nat.sub_diag. cbn.
    rewrite wr_Some by (rewrite app_length; cbn; lia). cbn. rewrite insert_app_r_alt by lia. rewrite L, Nat.sub_diag. done.
  Qed.
  Lemma xheld_node pre n post c is f : lset_node (xheld pre n post c is) (length pre) f = Some (xheld pre (f n) post c is).
  Proof.
    unfold lset_node, xheld, upd. cbn [l_info l_ptrs l_cur ra cache]. unfold rd. rewrite lookup_app_r by lia. rewrite Nat.sub_diag. cbn.
    rewrite wr_Some by (rewrite app_length; cbn; lia). cbn. rewrite insert_app_r_alt by lia. rewrite Nat.sub_diag. done.
  Qed.

  Lemma prop_run pre n post c is d rest p : length is = length pre ->
    prop_action p.1 p.2 (xheld pre n post c (is ++ d :: rest)) =
    if decide (prop_ok p) then Some (xheld pre (prop_node n p) post c (is ++ prop_info d p :: rest)) else None.
  Proof.
    intros L. assert (p.1 = txt_ref_idx \/ p.1 = txt_ref \/ p.1 = txt_ref_content -> prop_ok p -> is_Some (load_idx p.2)) as O.
    { intros H. unfold prop_ok. intros O. apply O. rewrite !elem_of_cons. tauto. }
    assert (p.1 <> txt_ref_idx -> p.1 <> txt_ref -> p.1 <> txt_ref_content -> prop_ok p) as N.
    { intros N1 N2 N3 H. rewrite !elem_of_cons, elem_of_nil in H. tauto. }
    assert (is_Some (load_idx p.2) -> prop_ok p) as Y by (intros H _; done).
    unfold prop_action, prop_node, prop_info. change (l_cur (xheld pre n post c (is ++ d :: rest))) with (length pre).
    destruct (decide (p.1 = txt_ref_idx)); [|destruct (decide (p.1 = txt_ref)); [|destruct (decide (p.1 = txt_ref_content))]].
    1-3: destruct (load_idx p.2) as [i|] eqn:E; cbn [mbind option_bind default];
      [rewrite decide_True by (apply Y; by eexists)|rewrite decide_False by (intros X; apply O in X as [? X]; [done|tauto]); done].
    - by rewrite xheld_node.
    - by rewrite xheld_node.
    - rewrite xheld_node. cbn [mbind option_bind]. by apply xheld_info.
    - rewrite (decide_True (P := prop_ok p)) by (by apply N). case_decide; [by apply xheld_info|done].
  Qed.

  Lemma props_run_ok pre post c is rest ps : length is = length pre -> forall n d,
    props_run ps (xheld pre n post c (is ++ d :: rest)) =
    if decide (Forall prop_ok ps) then Some (xheld pre (foldl prop_node n ps) post c (is ++ foldl prop_info d ps :: rest)) else None.
  Proof.
    intros L. induction ps as [|p ps IH]; intros n d; cbn [props_run foldl]; [by rewrite decide_True by constructor|].
    rewrite prop_run by done. destruct (decide (prop_ok p)) as [Y|N]; cbn [mbind option_bind].
    - rewrite IH. destruct (decide (Forall prop_ok ps)) as [Ys|Ns].
      + by rewrite decide_True by by constructor.
      + rewrite decide_False; [done|]. rewrite Forall_cons. tauto.
    - rewrite decide_False; [done|]. rewrite Forall_cons. tauto.
  Qed.

  Lemma close_ok nm w v pre n post c is d rest : length is = length pre ->
    close_tag known nm w v (xheld pre n post c (is ++ d :: rest)) =
    if forallb isspace w && known (local_name nm)
    then Some (LSt (Ptrs (pre ++ n :: post) c) (is ++ cset_val v (cset_name (local_name nm) d) :: rest) (parent n)) else None.
  Proof.
    intros L. unfold close_tag. destruct (forallb isspace w && known (local_name nm)); [|done]. cbn [xheld l_cur].
    change (LSt (Ptrs (pre ++ n :: post) c) (is ++ d :: rest) (length pre)) with (xheld pre n post c (is ++ d :: rest)).
    rewrite xheld_info by done. cbn [mbind option_bind]. unfold lpop, xheld. cbn [l_ptrs l_cur l_info ra]. unfold rd.
    rewrite lookup_app_r, Nat.sub_diag by lia. done.
  Qed.

  (** ** Documents whose references are empty *)
  Lemma calm_first l n v : Forall (fun p => p.1 <> txt_ref /\ p.1 <> txt_ref_content) l ->
    foldl prop_node (set_first_child n v) l = set_first_child (foldl prop_node n l) v /\ first_child (foldl prop_node n l) = first_child n.
  Proof.
    intros C. revert n. induction C as [|p l [N1 N2] _ IH]; intros n; [done|]. cbn [foldl].
    assert (prop_node (set_first_child n v) p = set_first_child (prop_node n p) v /\ first_child (prop_node n p) = first_child n) as [-> E].
    { unfold prop_node. by repeat case_decide. }
    destruct (IH (prop_node n p)) as [-> ->]. by rewrite E.
  Qed.

  Definition xgrows (t : xdoc) : Prop := forall pre n0 ks c is,
    first_child n0 = 0 -> cached (length pre) ks c -> length pre <> 0 \/ ks = [] -> length is = length pre + S (dsizes ks) ->
    exists c', xrun t (xopened pre n0 ks c is) = Some (xopened pre n0 (ks ++ [t]) c' (is ++ dinfos xinf t)) /\
      cached (length pre) (ks ++ [t]) c'.

  Lemma xgrows_list ts : Forall xgrows ts -> forall pre n0 ks c is,
    first_child n0 = 0 -> cached (length pre) ks c -> length pre <> 0 -> length is = length pre + S (dsizes ks) ->
    exists c', xruns ts (xopened pre n0 ks c is) = Some (xopened pre n0 (ks ++ ts) c' (is ++ concat (map (dinfos xinf) ts))) /\
      cached (length pre) (ks ++ ts) c' /\ (ts = [] -> c' = c).
  Proof.
    induction 1 as [|t ts Ht _ IH]; intros pre n0 ks c is Fc C Z0 L.
    { exists c. cbn. rewrite !app_nil_r. done. }
    destruct (Ht pre n0 ks c is Fc C (or_introl Z0) L) as (c1 & E1 & C1).
    destruct (IH pre n0 (ks ++ [t]) c1 (is ++ dinfos xinf t) Fc C1 Z0) as (c' & E & C' & _).
    { rewrite app_length, dinfos_length, dsizes_app, dsizes_one. lia. }
    exists c'. cbn [xruns]. rewrite E1. cbn [mbind option_bind]. rewrite E. cbn [map concat]. rewrite <- !app_assoc in *. done.
  Qed.

  Lemma xlast_range k (us : list xdoc) c : us <> [] -> cached k us c -> k <= c /\ c < k + S (dsizes us).
  Proof. intros N C. destruct (exists_last N) as (vs & u & ->). destruct (C vs u eq_refl). lia. Qed.

  Lemma xrun_calm t : good t -> calm t -> xgrows t.
  Proof.
    induction t as [a ts IH] using doc_ind'. rewrite !doc_all_eq. intros [(Sh & Po & Kn & Wh & [v Ev]) Gs] [Ca Cs].
    assert (Forall xgrows ts) as Gr.
    { clear Sh Ca. induction IH as [|t ts Ht _ IH]; [constructor|]. apply Forall_cons in Gs as [Gt Gs], Cs as [Ct Cs]. constructor; [by apply Ht|by apply IH]. }
    intros pre n0 ks c is Fc C Z0 L.
    destruct (push_ok xfin xfin_next xfin_parent (cinfo0 (F := F)) pre n0 ks c is Fc C Z0) as (pre' & L' & Ep & Kp).
    rewrite xrun_eq, Ep. cbn [mbind option_bind].
    assert (forall n c is, xopened pre' n [] c is = xheld pre' n [] c is) as Eo.
    { intros n c0 is0. unfold opened, opened_ns, xheld. cbn [tables]. do 4 f_equal. by destruct (length pre'). }
    rewrite Eo, props_run_ok by lia. rewrite decide_True by done. cbn [mbind option_bind].
    set (n1 := foldl prop_node (blank (length pre) 0 0) (x_props a)). set (d1 := foldl prop_info cinfo0 (x_props a)).
    assert (own (length pre') ts n1 = xfin a (length pre') (blank (length pre) 0 (match ts with [] => 0 | _ => S (length pre') end))) as O.
    { unfold own, xfin, n1. destruct (length pre') eqn:El; [lia|]. destruct ts as [|t ts]; [done|].
      destruct (calm_first (x_props a) (blank (length pre) 0 0) (S (S n)) (Ca ltac:(done))) as [<- _]. done. }
    assert (exists c', xruns ts (xheld pre' n1 [] (length pre') (is ++ [d1])) = Some (xopened pre' n1 ts c' (is ++ d1 :: concat (map (dinfos xinf) ts))) /\
      length pre' <= c' /\ c' < length pre' + S (dsizes ts)) as (c' & Er & C1 & C2).
    { destruct ts as [|t ts].
      - exists (length pre'). cbn [xruns map concat]. rewrite Eo. split; [done|]. cbn. lia.
      - destruct (calm_first (x_props a) (blank (length pre) 0 0) 0 (Ca ltac:(done))) as [_ F0].
        destruct (xgrows_list (t :: ts) Gr pre' n1 [] (length pre') (is ++ [d1])) as (c' & E & C' & _); [done|apply cached_nil|lia|rewrite app_length; cbn; lia|].
        exists c'. rewrite <- Eo, E. rewrite <- app_assoc. split; [done|]. by apply xlast_range. }
    rewrite Er. cbn [mbind option_bind]. rewrite Ev. cbn [mbind option_bind].
    change (xopened pre' n1 ts c' (is ++ d1 :: concat (map (dinfos xinf) ts))) with
      (xheld pre' (own (length pre') ts n1) (tables xfin (length pre') (S (length pre')) 0 ts) c' (is ++ d1 :: concat (map (dinfos xinf) ts))).
    rewrite close_ok by lia. rewrite Kn.
    assert (forallb isspace (x_after (x_body a)) = true) as -> by (apply forallb_forall; rewrite Forall_forall in Wh; intros x I; apply Wh; by apply elem_of_list_In).
    cbn [andb].
    destruct (pop_ok xfin xfin_next xfin_parent pre n0 ks pre' n1 a ts c' (is ++ dinfos xinf (Doc a ts)) Kp L' O C1 C2) as [P C'].
    exists c'. split; [|done]. rewrite <- P. unfold lpop, opened, opened_ns. cbn [l_ptrs l_info l_cur ra]. unfold rd. rewrite lookup_app_r, Nat.sub_diag by lia.
    cbn [lookup list_lookup mbind option_bind]. do 3 f_equal. cbn [dinfos]. unfold xinf. rewrite Ev. done.
  Qed.

  Lemma xfin_ref (a : xpay) k p nx fc k' p' nx' fc' : is_ref (xfin a k (blank p nx fc)) = is_ref (xfin a k' (blank p' nx' fc')).
  Proof.
    unfold xfin. assert (forall n n', is_ref n = is_ref n' -> is_ref (foldl prop_node n (x_props a)) = is_ref (foldl prop_node n' (x_props a))) as H.
    { induction (x_props a) as [|x l IH]; intros n n' E; [done|]. cbn [foldl]. apply IH. unfold prop_node. by repeat case_decide. }
    by apply H.
  Qed.
  Lemma ref_calm l n : is_ref (foldl prop_node n l) = false -> Forall (fun p => p.1 <> txt_ref /\ p.1 <> txt_ref_content) l /\ is_ref n = false.
  Proof.
    revert n. induction l as [|p l IH]; intros n E; [split; [constructor|done]|]. cbn [foldl] in E. apply IH in E as [C E].
    unfold prop_node in E. repeat case_decide; try discriminate; (split; [constructor; [|done]|done]).
    - subst. split; intros E'; rewrite E' in *; done.
    - done.
  Qed.

  (** ** What every run leaves: all but the links to children and siblings *)
  Definition core (n : node) : nat * bool * bool * nat := (parent n, is_ref n, referenced n, pub_idx n).

  Lemma upd_core ns i f ns' : (forall n, core (f n) = core n) -> upd ns i f = Some ns' -> map core ns' = map core ns.
  Proof.
    intros H U. unfold upd in U. apply bind_Some in U as (n & R & W). unfold wr in W. case_match; [|done]. injection W as <-.
    change (core <$> <[i:=f n]> ns = core <$> ns). rewrite list_fmap_insert, H. apply list_insert_id. rewrite list_lookup_fmap. unfold rd in R. by rewrite R.
  Qed.
  Lemma last_child_ra p par lc p' : last_child_for_parent p par = Some (lc, p') -> ra p' = ra p.
  Proof.
    unfold last_child_for_parent. case_match; [by intros [= _ <-]|]. intros E. apply bind_Some in E as (n & _ & E).
    case_match; [by injection E as _ <-|]. apply bind_Some in E as (m & _ & E). case_match; [|by injection E as _ <-].
    apply bind_Some in E as (m' & _ & E). by injection E as _ <-.
  Qed.
  Lemma lpush_core (d : @cinfo F) s s' : lpush d s = Some s' ->
    map core (ra (l_ptrs s')) = map core (ra (l_ptrs s)) ++ [(l_cur s, false, false, 0)] /\ l_info s' = l_info s ++ [d] /\ l_cur s' = length (ra (l_ptrs s)).
  Proof.
    unfold lpush. cbn [add_ptr]. case_match; [done|]. intros E. apply bind_Some in E as (p & A & E). injection E as <-. cbn [l_ptrs l_info l_cur].
    split; [|done]. unfold add_child in A. apply bind_Some in A as ([lc q] & Lq & A). apply last_child_ra in Lq. cbn [ra] in Lq. rewrite Lq in A. clear Lq.
    apply bind_Some in A as (ns & U & A).
    assert (map core ns = map core (ra (l_ptrs s)) ++ [(l_cur s, false, false, 0)]) as E.
    { unfold upd, rd in U. rewrite lookup_app_r, Nat.sub_diag in U by lia. cbn in U. rewrite wr_Some in U by (rewrite app_length; cbn; lia). injection U as <-.
      rewrite insert_app_r_alt, Nat.sub_diag by lia. cbn. by rewrite map_app. }
    case_match; [by injection A as <-|]. apply bind_Some in A as (n & _ & A). case_match.
    - apply bind_Some in A as (ns' & U' & A). injection A as <-. cbn [ra]. apply upd_core in U' as ->; done.
    - case_match; [by injection A as <-|]. apply bind_Some in A as (ns' & U' & A). injection A as <-. cbn [ra]. apply upd_core in U' as ->; done.
  Qed.

  Lemma core_props l : forall n n', core n = core n' -> core (foldl prop_node n l) = core (foldl prop_node n' l).
  Proof.
    induction l as [|p l IH]; intros n n' E; [done|]. cbn [foldl]. apply IH. unfold core in *. injection E as E1 E2 E3 E4. unfold prop_node.
    repeat case_decide; cbn; by rewrite ?E1, ?E2, ?E3, ?E4.
  Qed.
  Lemma split_at {A} (l : list A) k : k < length l -> exists pre x post, l = pre ++ x :: post /\ length pre = k.
  Proof.
    intros L. destruct (lookup_lt_is_Some_2 l k L) as [x E]. exists (take k l), x, (drop (S k) l). split; [by rewrite take_drop_middle|].
    rewrite take_length. lia.
  Qed.
  Lemma map_mid {A B} (f : A -> B) l a x b : map f l = a ++ x :: b -> exists la y lb, l = la ++ y :: lb /\ map f la = a /\ f y = x /\ map f lb = b.
  Proof.
    revert a. induction l as [|y l IH]; intros a E; [by destruct a|]. destruct a as [|z a]; cbn in E.
    - injection E as E1 E2. exists [], y, l. done.
    - injection E as E1 E2. destruct (IH a E2) as (la & y' & lb & -> & <- & E3 & E4). exists (y :: la), y', lb. cbn. by rewrite E1.
  Qed.

  Definition xleaves (t : xdoc) : Prop := forall s s' : lst (@cinfo F), length (l_info s) = length (ra (l_ptrs s)) -> xrun t s = Some s' ->
    map core (ra (l_ptrs s')) = map core (ra (l_ptrs s)) ++ map core (table xfin (l_cur s) (length (ra (l_ptrs s))) 0 t) /\
    l_info s' = l_info s ++ dinfos xinf t /\ l_cur s' = l_cur s.

  Lemma core_next n v : core (set_next n v) = core n. Proof. done. Qed.
  Lemma core_table p k nx nx' t : map core (table xfin p k nx t) = map core (table xfin p k nx' t).
  Proof. destruct t as [a ks]. rewrite !table_eq. cbn [map]. f_equal. unfold xfin. by apply core_props. Qed.

  Lemma xleaves_list ts : Forall xleaves ts -> forall s s', length (l_info s) = length (ra (l_ptrs s)) -> xruns ts s = Some s' ->
    map core (ra (l_ptrs s')) = map core (ra (l_ptrs s)) ++ map core (tables xfin (l_cur s) (length (ra (l_ptrs s))) 0 ts) /\
    l_info s' = l_info s ++ concat (map (dinfos xinf) ts) /\ l_cur s' = l_cur s.
  Proof.
    induction 1 as [|t ts Ht _ IH]; intros s s' L R; cbn in R.
    - injection R as <-. cbn. by rewrite !app_nil_r.
    - apply bind_Some in R as (s1 & E & R). destruct (Ht s s1 L E) as (C1 & I1 & U1).
      assert (length (ra (l_ptrs s1)) = length (ra (l_ptrs s)) + dsize t) as L1.
      { pose proof (f_equal length C1) as X. rewrite app_length, !map_length, table_length in X. done. }
      destruct (IH s1 s') as (C2 & I2 & U2); [rewrite I1, app_length, dinfos_length; lia|done|].
      rewrite C2, C1, I2, I1, U1, L1. cbn [tables map concat]. rewrite U2, U1. rewrite map_app, <- !app_assoc.
      split; [|done]. do 2 f_equal. apply core_table.
  Qed.

  Lemma xrun_leaves t : xleaves t.
  Proof.
    induction t as [a ks IH] using doc_ind'. intros s s' L. rewrite xrun_eq. intros R.
    apply bind_Some in R as (s1 & Ep & R). apply bind_Some in R as (s2 & R1 & R). apply bind_Some in R as (s3 & R2 & R). apply bind_Some in R as (v & Ev & Ec).
    apply lpush_core in Ep as (C1 & I1 & U1).
    destruct (map_mid core _ _ _ [] C1) as (pre & n & post & E1 & E2 & E3 & E4). destruct post; [|done].
    assert (length pre = length (ra (l_ptrs s))) as Lp by (by rewrite <- (map_length core pre), E2, map_length).
    assert (s1 = xheld pre n [] (cache (l_ptrs s1)) (l_info s ++ [cinfo0])) as Es.
    { destruct s1 as [[ns c] inf cur]. cbn in *. unfold xheld. subst. by rewrite Lp. }
    rewrite Es, props_run_ok in R1 by lia. case_decide; [|done]. injection R1 as <-.
    set (n1 := foldl prop_node n (x_props a)) in *. set (d1 := foldl prop_info cinfo0 (x_props a)) in *.
    destruct (xleaves_list ks IH (xheld pre n1 [] (cache (l_ptrs s1)) (l_info s ++ [d1])) s3) as (C2 & I2 & U2);
      [cbn [xheld l_info l_ptrs ra]; rewrite !app_length; cbn; lia|exact R2|].
    cbn [xheld l_ptrs l_info l_cur ra] in C2, I2, U2. rewrite map_app, <- app_assoc in C2. cbn [map app] in C2.
    destruct (map_mid core _ _ _ _ C2) as (pre3 & n3 & post3 & F1 & F2 & F3 & F4).
    assert (length pre3 = length pre) as Lp3 by (by rewrite <- (map_length core pre3), F2, map_length).
    assert (s3 = xheld pre3 n3 post3 (cache (l_ptrs s3)) (l_info s ++ d1 :: concat (map (dinfos xinf) ks))) as Es3.
    { destruct s3 as [[ns c] inf cur]. cbn in *. unfold xheld. rewrite <- app_assoc in I2. subst. by rewrite Lp3. }
    rewrite Es3, close_ok in Ec by lia. case_match; [|done]. injection Ec as <-. cbn [l_ptrs l_info l_cur ra].
    assert (core n1 = core (xfin a (length pre) (blank (l_cur s) 0 0))) as Cn by (apply core_props; by rewrite E3).
    split; [|split].
    - rewrite table_eq, map_app. cbn [map]. rewrite F2, F3, F4, E2, Cn. f_equal. f_equal.
      + unfold xfin. by apply core_props.
      + rewrite app_length. cbn [length]. by rewrite Lp, Nat.add_1_r.
    - cbn [dinfos]. unfold xinf. by rewrite Ev.
    - assert (parent n3 = parent (xfin a (length pre) (blank (l_cur s) 0 0))) as -> by (unfold core in F3, Cn; congruence). by rewrite xfin_parent.
  Qed.

  (** ** Runs succeed on good documents only *)
  Lemma close_some nm w v s s' : close_tag (F := F) known nm w v s = Some s' -> known (local_name nm) = true /\ Forall (fun c => isspace c = true) w.
  Proof.
    unfold close_tag. destruct (forallb isspace w) eqn:W; [|done]. destruct (known (local_name nm)); [|done]. intros _. split; [done|].
    apply Forall_forall. intros x I. rewrite forallb_forall in W. apply W. by apply elem_of_list_In.
  Qed.
  Lemma props_some ps : forall s s', props_run ps s = Some s' -> Forall prop_ok ps.
  Proof.
    induction ps as [|p ps IH]; intros s s' R; [constructor|]. cbn in R. apply bind_Some in R as (s1 & E & R). constructor; [|by eapply IH].
    clear IH R. intros I. rewrite !elem_of_cons, elem_of_nil in I. unfold prop_action in E.
    destruct (load_idx p.2) as [i|]; [by eexists|]. exfalso. repeat case_decide; try done; tauto.
  Qed.
  Lemma xrun_good t : shaped t -> forall s s', xrun t s = Some s' -> good t.
  Proof.
    induction t as [a ks IH] using doc_ind'. rewrite !doc_all_eq. intros [Sh Shs] s s'. rewrite xrun_eq. intros R.
    apply bind_Some in R as (s1 & Ep & R). apply bind_Some in R as (s2 & R1 & R). apply bind_Some in R as (s3 & R2 & R). apply bind_Some in R as (v & Ev & Ec).
    apply close_some in Ec as [K W]. split.
    - split; [done|]. split; [by eapply props_some|]. split; [done|]. split; [done|by exists v].
    - clear R1 W Sh. revert s2 R2. induction IH as [|t ts Ht _ IH]; intros s2 R2; [constructor|]. apply Forall_cons in Shs as [St Ss].
      cbn in R2. apply bind_Some in R2 as (s4 & E & R2). constructor; [by eapply Ht|by eapply IH].
  Qed.
End Doc.
