(** The SCM grammar and the documents it describes. *)
From Verif Require Import Base Ptrs Value Parse ParseProof Json Cinit CinitParse DfsProof Scm.

Section Doc.
  Context {F : Type} `{FL : Floats F}.
  Context (known : list Z -> bool).

  (** A list has a flag for every member: white space follows. *)
  Inductive mval := SList (ws : list bool) | SChar (v : value F) | SNum (v : value F) | SStr (c : list Z) | SFalse.
  (** Names from the outermost one. *)
  Record mpay := MPay { p_names : list (list Z); p_attrs : list (list Z * Z); p_value : mval }.

  Definition mval_info (v : mval) : @cinfo F :=
    match v with
    | SList _ => cinfo0
    | SChar v | SNum v => cset_val v cinfo0
    | SStr c => cset_val (default VVoid (scm_string c)) cinfo0
    | SFalse => cset_null cinfo0
    end.

  Definition mfin (a : mpay) (k : nat) (n : node) : node := foldr attr_node n (p_attrs a).
  Definition named_info (nms : list (list Z)) (d : @cinfo F) : cinfo := foldr cset_name d nms.
  Definition minf (a : mpay) : cinfo := foldr attr_info (named_info (p_names a) (mval_info (p_value a))) (p_attrs a).

  Notation mdoc := (doc mpay).
  Notation mopened := (@opened mpay cinfo mfin).

  Lemma mfin_next a k n v : set_next (mfin a k n) v = mfin a k (set_next n v).
  Proof. unfold mfin. induction (p_attrs a) as [|x l IH]; [done|]. cbn [foldr]. by rewrite attr_next, IH. Qed.
  Lemma mfin_parent a k n : parent (mfin a k n) = parent n.
  Proof. unfold mfin. induction (p_attrs a) as [|x l IH]; [done|]. cbn [foldr]. by rewrite attr_parent, IH. Qed.

  (** The tokens of a document. *)
  Definition wstoks (b : bool) : list (@mtok F) := if b then [MtWs] else [].
  Fixpoint litoks (ws : list bool) (l : list (list (@mtok F))) : list mtok :=
    match l, ws with
    | x :: l, b :: ws => x ++ wstoks b ++ litoks ws l
    | _, _ => []
    end.
  Definition matoks (l : list (list Z * Z)) : list (@mtok F) := map (fun a => MtAttr a.1 a.2) l.
  Fixpoint wrap (nms : list (list Z)) (l : list (@mtok F)) : list mtok :=
    match nms with
    | [] => l
    | nm :: nms => [MtLp; MtId nm; MtDot] ++ wrap nms l ++ [MtRp]
    end.
  Definition mvtoks (v : mval) (ks : list (list (@mtok F))) : list mtok :=
    match v with
    | SList ws => MtLp :: litoks ws ks ++ [MtRp]
    | SChar v => [MtChar v]
    | SNum v => [MtNum v]
    | SStr c => [MtStr c]
    | SFalse => [MtFalse]
    end.
  Fixpoint mtoks (t : mdoc) : list mtok :=
    match t with Doc a ks => matoks (p_attrs a) ++ wrap (p_names a) (mvtoks (p_value a) (map mtoks ks)) end.
  Lemma mtoks_eq a ks : mtoks (Doc a ks) = matoks (p_attrs a) ++ wrap (p_names a) (mvtoks (p_value a) (map mtoks ks)).
  Proof. reflexivity. Qed.

  Definition mvgood (v : mval) (ks : list mdoc) : Prop :=
    match v with
    | SList ws => length ws = length ks
    | SChar v | SNum v => ks = [] /\ accepted v = true
    | SStr c => ks = [] /\ exists v, scm_string (F := F) c = Some v
    | SFalse => ks = []
    end.
  Definition mgood (a : mpay) (ks : list mdoc) : Prop := Forall (fun nm => known nm = true) (p_names a) /\ mvgood (p_value a) ks.
  Notation good := (doc_all mgood).

  (** The open node, with whatever the actions made of it. *)
  Definition mheld (pre : list node) (n : node) (ks : list mdoc) (c : nat) (is : list (@cinfo F)) : lst cinfo :=
    LSt (Ptrs (pre ++ n :: tables mfin (length pre) (S (length pre)) 0 ks) c) is (length pre).

  Lemma mheld_opened pre n0 ks c is : mopened pre n0 ks c is = mheld pre (own (length pre) ks n0) ks c is.
  Proof. done. Qed.
  Lemma mheld_info pre n ks c is d rest f : length is = length pre ->
    lset_info (mheld pre n ks c (is ++ d :: rest)) (length pre) f = Some (mheld pre n ks c (is ++ f d :: rest)).
  Proof.
    intros L. unfold lset_info, mheld. cbn [l_info l_ptrs l_cur]. unfold rd. rewrite lookup_app_r by lia. rewrite L, Nat.sub_diag. cbn.
    rewrite wr_Some by (rewrite app_length; cbn; lia). cbn. rewrite insert_app_r_alt by lia. rewrite L, Nat.sub_diag. done.
  Qed.
  Lemma mheld_node pre n ks c is f : lset_node (mheld pre n ks c is) (length pre) f = Some (mheld pre (f n) ks c is).
  Proof.
    unfold lset_node, mheld, upd. cbn [l_info l_ptrs l_cur ra cache]. unfold rd. rewrite lookup_app_r by lia. rewrite Nat.sub_diag. cbn.
    rewrite wr_Some by (rewrite app_length; cbn; lia). cbn. rewrite insert_app_r_alt by lia. rewrite Nat.sub_diag. done.
  Qed.

  Lemma mattr_ok pre n ks c is d rest id v : length is = length pre ->
    attr_action id v (mheld pre n ks c (is ++ d :: rest)) =
    Some (mheld pre (attr_node (id, v) n) ks c (is ++ attr_info (id, v) d :: rest)).
  Proof.
    intros L. unfold attr_action, attr_node, attr_info. cbn [fst snd]. change (l_cur (mheld pre n ks c (is ++ d :: rest))) with (length pre).
    repeat case_decide; try done; rewrite ?mheld_node; cbn [mbind option_bind]; try done.
    cbn [mheld l_cur]. by apply mheld_info.
  Qed.
  Lemma mname_ok pre n ks c is d rest nm : length is = length pre ->
    name_action known nm (mheld pre n ks c (is ++ d :: rest)) =
    if known nm then Some (mheld pre n ks c (is ++ cset_name nm d :: rest)) else None.
  Proof. intros L. unfold name_action. cbn [mheld l_cur]. destruct (known nm); [|done]. by apply mheld_info. Qed.

  Lemma mpop_ok pre n0 ks0 pre' n a ks c is :
    (forall t, pre' ++ table mfin (length pre) (length pre') 0 t = opened_ns mfin pre n0 (ks0 ++ [t])) ->
    length pre' = length pre + S (dsizes ks0) ->
    n = mfin a (length pre') (blank (length pre) 0 (match ks with [] => 0 | _ => S (length pre') end)) ->
    length pre' <= c -> c < length pre' + S (dsizes ks) ->
    lpop (mheld pre' n ks c is) = Some (mopened pre n0 (ks0 ++ [Doc a ks]) c is) /\
    cached (length pre) (ks0 ++ [Doc a ks]) c.
  Proof.
    intros E L O C1 C2. split.
    - unfold lpop, mheld. cbn [l_ptrs l_info l_cur ra]. unfold rd. rewrite lookup_app_r, Nat.sub_diag by lia. cbn [lookup list_lookup mbind option_bind].
      rewrite O, mfin_parent. cbn [blank parent]. unfold opened. do 3 f_equal. rewrite <- E, table_eq. done.
    - intros vs u Eu. apply app_inj_2 in Eu as [<- [= <-]]; [|done]. rewrite dsizes_app, dsizes_one. cbn. unfold dsizes in *. lia.
  Qed.

  Lemma mown_blank k p (ks : list mdoc) : k <> 0 -> own k ks (blank p 0 0) = blank p 0 (match ks with [] => 0 | _ => S k end).
  Proof. destruct k; [done|]. by destruct ks. Qed.
  Lemma mlast_range k (us : list mdoc) c : us <> [] -> cached k us c -> k <= c /\ c < k + S (dsizes us).
  Proof. intros N C. destruct (exists_last N) as (vs & u & ->). destruct (C vs u eq_refl). lia. Qed.

  (** ** Documents are accepted *)
  Notation D := (mderives known).
  Definition maccepts (t : mdoc) : Prop := forall pre n0 ks c is rest,
    first_child n0 = 0 -> cached (length pre) ks c -> length pre <> 0 \/ ks = [] -> length is = length pre + S (dsizes ks) ->
    exists c', D NScm (mtoks t ++ rest) (mopened pre n0 ks c is) rest
      (mopened pre n0 (ks ++ [t]) c' (is ++ dinfos minf t)) /\ cached (length pre) (ks ++ [t]) c'.

  Lemma maccept_ws b rest s : D NWs (wstoks b ++ rest) s rest s.
  Proof. destruct b; constructor. Qed.

  Lemma maccept_list ws ts : length ws = length ts -> Forall maccepts ts ->
    forall pre n0 ks c is rest, first_child n0 = 0 -> cached (length pre) ks c -> length pre <> 0 -> length is = length pre + S (dsizes ks) ->
    exists c', D NList (litoks ws (map mtoks ts) ++ rest) (mopened pre n0 ks c is) rest
      (mopened pre n0 (ks ++ ts) c' (is ++ concat (map (dinfos minf) ts))) /\ cached (length pre) (ks ++ ts) c'.
  Proof.
    revert ws. induction ts as [|t ts IH]; intros [|b ws] Lw Ac pre n0 ks c is rest Fc C Z L; try discriminate.
    { exists c. cbn. rewrite !app_nil_r. split; [constructor|done]. }
    apply Forall_cons in Ac as [At As]. injection Lw as Lw.
    destruct (At pre n0 ks c is (wstoks b ++ litoks ws (map mtoks ts) ++ rest) Fc C (or_introl Z) L) as (c1 & X1 & C1).
    destruct (IH ws Lw As pre n0 (ks ++ [t]) c1 (is ++ dinfos minf t) rest Fc C1 Z) as (c' & X & C').
    { rewrite app_length, dinfos_length, dsizes_app, dsizes_one. lia. }
    exists c'. rewrite <- !app_assoc in X. cbn [app] in X. rewrite <- app_assoc in C'. split; [|done].
    cbn [map litoks concat]. rewrite <- !app_assoc. eapply MD_list; [exact X1|apply maccept_ws|exact X].
  Qed.

  (** The value and the names of the open node. *)
  Lemma maccept_value pre p v ts is rest : length pre <> 0 -> length is = length pre -> Forall maccepts ts -> mvgood v ts ->
    exists c', D NValue (mvtoks v (map mtoks ts) ++ rest) (mopened pre (blank p 0 0) [] (length pre) (is ++ [cinfo0])) rest
      (mheld pre (own (length pre) ts (blank p 0 0)) ts c' (is ++ mval_info v :: concat (map (dinfos minf) ts))) /\
      length pre <= c' /\ c' < length pre + S (dsizes ts).
  Proof.
    intros Z L Ac G. destruct v as [ws|v|v|s|]; cbn [mvtoks mval_info mvgood] in *.
    - destruct (maccept_list ws ts G Ac pre (blank p 0 0) [] (length pre) (is ++ [cinfo0]) (MtRp :: rest)) as (c' & X & C'); [done|apply cached_nil|done|rewrite app_length; cbn; lia|].
      destruct ts as [|t ts].
      + destruct ws; [|done]. exists (length pre). cbn. split; [|lia]. constructor. constructor.
      + exists c'. rewrite <- app_assoc in X. cbn [app] in X |- *. rewrite <- app_assoc. cbn [app]. split; [constructor; exact X|].
        apply mlast_range; done.
    - destruct G as [-> Hv]. exists (length pre). split; [|cbn; lia]. cbn. constructor; [done|]. rewrite mheld_opened. by apply mheld_info.
    - destruct G as [-> Hv]. exists (length pre). split; [|cbn; lia]. cbn. constructor; [done|]. rewrite mheld_opened. by apply mheld_info.
    - destruct G as [-> [v Hv]]. exists (length pre). split; [|cbn; lia]. rewrite Hv. cbn. econstructor; [exact Hv|]. rewrite mheld_opened. by apply mheld_info.
    - subst ts. exists (length pre). split; [|cbn; lia]. cbn. constructor. rewrite mheld_opened. by apply mheld_info.
  Qed.

  Lemma maccept_names nms pre p v ts is rest : Forall (fun nm => known nm = true) nms ->
    length pre <> 0 -> length is = length pre -> Forall maccepts ts -> mvgood v ts ->
    exists c', D NValue (wrap nms (mvtoks v (map mtoks ts)) ++ rest) (mopened pre (blank p 0 0) [] (length pre) (is ++ [cinfo0])) rest
      (mheld pre (own (length pre) ts (blank p 0 0)) ts c' (is ++ named_info nms (mval_info v) :: concat (map (dinfos minf) ts))) /\
      length pre <= c' /\ c' < length pre + S (dsizes ts).
  Proof.
    intros K Z L Ac G. revert rest. induction K as [|nm nms Kn _ IH]; intros rest; [by apply maccept_value|].
    destruct (IH (MtRp :: rest)) as (c' & X & C). exists c'. split; [|done]. cbn [wrap app]. rewrite <- app_assoc. cbn [app].
    eapply MD_named; [exact X|]. rewrite mname_ok, Kn by done. done.
  Qed.

  Lemma maccept t : good t -> maccepts t.
  Proof.
    induction t as [a ts IH] using doc_ind'. rewrite doc_all_eq. intros [[K G] Gs].
    assert (Forall maccepts ts) as Ac.
    { clear G. induction IH as [|t ts Ht _ IH]; [done|]. apply Forall_cons in Gs as [Gt Gs]. constructor; [by apply Ht|by apply IH]. }
    intros pre n0 ks c is rest Fc C Z L.
    destruct (push_ok mfin mfin_next mfin_parent cinfo0 pre n0 ks c is Fc C Z) as (pre' & L' & Ep & Kp).
    assert (length pre' <> 0) as Z' by lia.
    destruct a as [nms ats v]. cbn [p_names p_attrs p_value] in *.
    destruct (maccept_names nms pre' (length pre) v ts is rest K Z' ltac:(lia) Ac G) as (c' & X & C1 & C2).
    set (n1 := own (length pre') ts (blank (length pre) 0 0)) in *.
    assert (D NStmt (matoks ats ++ wrap nms (mvtoks v (map mtoks ts)) ++ rest) (mopened pre' (blank (length pre) 0 0) [] (length pre') (is ++ [cinfo0])) rest
      (mheld pre' (foldr attr_node n1 ats) ts c' (is ++ foldr attr_info (named_info nms (mval_info v)) ats :: concat (map (dinfos minf) ts)))) as W.
    { clear G. induction ats as [|[id av] ats IHa]; cbn [matoks map app foldr fst snd]; [by constructor|].
      eapply MD_attr; [exact IHa|]. apply mattr_ok. lia. }
    destruct (mpop_ok pre n0 ks pre' (foldr attr_node n1 ats) (MPay nms ats v) ts c' (is ++ dinfos minf (Doc (MPay nms ats v) ts)) Kp L') as [P C']; [|done..|].
    { unfold n1, mfin. cbn [p_attrs]. by rewrite mown_blank by done. }
    exists c'. split; [|exact C']. rewrite mtoks_eq. cbn [p_names p_attrs p_value]. rewrite <- !app_assoc. econstructor; [exact Ep|exact W|exact P].
  Qed.

  Definition toptoks (b1 b2 : bool) (t : mdoc) : list (@mtok F) := wstoks b1 ++ mtoks t ++ wstoks b2.

  (** ** Nothing else is accepted *)
  Definition mexplains (x : mnt) (ts : list mtok) (s : lst cinfo) (ts' : list mtok) (s' : lst cinfo) : Prop :=
    match x with
    | NWs => s' = s /\ exists b, ts = wstoks b ++ ts'
    | NTop => forall pre n0 ks c is, s = mopened pre n0 ks c is -> first_child n0 = 0 -> cached (length pre) ks c ->
        length pre <> 0 \/ ks = [] -> length is = length pre + S (dsizes ks) ->
        exists b1 b2 t c', good t /\ ts = toptoks b1 b2 t ++ ts' /\
          s' = mopened pre n0 (ks ++ [t]) c' (is ++ dinfos minf t) /\ cached (length pre) (ks ++ [t]) c'
    | NScm => forall pre n0 ks c is, s = mopened pre n0 ks c is -> first_child n0 = 0 -> cached (length pre) ks c ->
        length pre <> 0 \/ ks = [] -> length is = length pre + S (dsizes ks) ->
        exists t c', good t /\ ts = mtoks t ++ ts' /\
          s' = mopened pre n0 (ks ++ [t]) c' (is ++ dinfos minf t) /\ cached (length pre) (ks ++ [t]) c'
    | NList => forall pre n0 ks c is, s = mopened pre n0 ks c is -> first_child n0 = 0 -> cached (length pre) ks c ->
        length pre <> 0 -> length is = length pre + S (dsizes ks) ->
        exists us ws c', length ws = length us /\ Forall good us /\ ts = litoks ws (map mtoks us) ++ ts' /\
          s' = mopened pre n0 (ks ++ us) c' (is ++ concat (map (dinfos minf) us)) /\ cached (length pre) (ks ++ us) c' /\ (us = [] -> c' = c)
    | NStmt | NValue => forall pre p is, s = mopened pre (blank p 0 0) [] (length pre) (is ++ [cinfo0]) -> length pre <> 0 -> length is = length pre ->
        exists a us c', good (Doc a us) /\ ts = mtoks (Doc a us) ++ ts' /\
          s' = mheld pre (mfin a (length pre) (own (length pre) us (blank p 0 0))) us c' (is ++ dinfos minf (Doc a us)) /\
          length pre <= c' /\ c' < length pre + S (dsizes us) /\
          match x with NStmt => True | _ => p_attrs a = [] end
    end.

  Lemma mexplain x ts s ts' s' : D x ts s ts' s' -> mexplains x ts s ts' s'.
  Proof.
    induction 1 as [ts s ts1 s1 ts2 s2 ts' s' X1 IH1 X2 IH2 X3 IH3|ts s s1 ts' s2 s3 Ep X IH Eo|ts s ts' s' X IH|id v ts s ts' s1 s' X IH Ea
      |ts s ts' s' X IH|nm ts s ts' s1 s' X IH En|v ts s s' Av Es|v ts s s' Av Es|c v ts s s' Ev Es|ts s s' Es
      |ts s|ts s ts1 s1 ts2 s2 ts' s' X1 IH1 X2 IH2 X3 IH3|ts s|ts s]; cbn [mexplains] in *.
    - intros pre n0 ks c is -> Fc C Z L. destruct IH1 as [-> [b1 ->]], IH3 as [-> [b2 ->]].
      destruct (IH2 pre n0 ks c is eq_refl Fc C Z L) as (t & c' & G & -> & -> & C'). exists b1, b2, t, c'.
      split; [done|]. split; [|done]. unfold toptoks. by rewrite <- !app_assoc.
    - intros pre n0 ks c is -> Fc C Z L. destruct (push_ok mfin mfin_next mfin_parent cinfo0 pre n0 ks c is Fc C Z) as (pre' & L' & E & K).
      rewrite Ep in E. injection E as ->.
      destruct (IH pre' (length pre) is eq_refl) as (a & us & c' & G & -> & -> & C1 & C2 & _); [lia|lia|].
      destruct (mpop_ok pre n0 ks pre' (mfin a (length pre') (own (length pre') us (blank (length pre) 0 0))) a us c' (is ++ dinfos minf (Doc a us)) K L') as [P C']; [|done..|].
      { by rewrite mown_blank by lia. }
      exists (Doc a us), c'. rewrite Eo in P. injection P as ->. done.
    - intros pre p is -> Z L. destruct (IH pre p is eq_refl Z L) as (a & us & c' & G & -> & -> & C1 & C2 & Ha).
      exists a, us, c'. done.
    - intros pre p is -> Z L. destruct (IH pre p is eq_refl Z L) as (a & us & c' & G & -> & -> & C1 & C2 & _).
      cbn [dinfos] in Ea. rewrite mattr_ok in Ea by done. injection Ea as <-.
      exists (MPay (p_names a) ((id, v) :: p_attrs a) (p_value a)), us, c'. rewrite doc_all_eq in *. split; [done|]. split; [done|].
      split; [|done]. done.
    - intros pre p is -> Z L. destruct (IH pre (blank p 0 0) [] (length pre) (is ++ [cinfo0]) eq_refl) as (us & ws & c' & Lw & G & -> & -> & C' & Cn); [done|apply cached_nil|done|rewrite app_length; cbn; lia|].
      exists (MPay [] [] (SList ws)), us, c'. rewrite doc_all_eq, mtoks_eq. cbn [p_names p_attrs p_value matoks map app mvtoks wrap].
      split; [split; [split; [constructor|done]|done]|]. rewrite <- app_assoc. cbn [app]. split; [done|]. rewrite <- app_assoc. split; [done|].
      assert (length pre <= c' /\ c' < length pre + S (dsizes us)) as [??]; [|done].
      destruct us as [|u us]; [rewrite Cn by done; cbn; lia|]. by apply mlast_range.
    - intros pre p is -> Z L. destruct (IH pre p is eq_refl Z L) as (a & us & c' & G & -> & -> & C1 & C2 & Ha).
      cbn [dinfos] in En. rewrite mname_ok in En by done. destruct (known nm) eqn:Kn; [|done]. injection En as <-.
      destruct a as [nms ats v]. cbn [p_attrs] in Ha. subst ats. rewrite doc_all_eq in G. destruct G as [[K G] Gs]. cbn [p_names p_value] in *.
      exists (MPay (nm :: nms) [] v), us, c'. rewrite doc_all_eq, !mtoks_eq. cbn [p_names p_attrs p_value matoks map app wrap].
      split; [split; [split; [by constructor|done]|done]|]. rewrite <- !app_assoc. cbn [app]. split; [done|]. split; [done|]. done.
    - intros pre p is -> Z L. change (l_cur (mopened pre (blank p 0 0) [] (length pre) (is ++ [cinfo0]))) with (length pre) in Es. rewrite mheld_opened, mheld_info in Es by done. injection Es as <-.
      exists (MPay [] [] (SChar v)), [], (length pre). cbn. unfold minf. cbn.
      split; [split; [|done]; split; [constructor|done]|]. split; [done|]. split; [done|]. split; [lia|]. split; [lia|done].
    - intros pre p is -> Z L. change (l_cur (mopened pre (blank p 0 0) [] (length pre) (is ++ [cinfo0]))) with (length pre) in Es. rewrite mheld_opened, mheld_info in Es by done. injection Es as <-.
      exists (MPay [] [] (SNum v)), [], (length pre). cbn. unfold minf. cbn.
      split; [split; [|done]; split; [constructor|done]|]. split; [done|]. split; [done|]. split; [lia|]. split; [lia|done].
    - intros pre p is -> Z L. change (l_cur (mopened pre (blank p 0 0) [] (length pre) (is ++ [cinfo0]))) with (length pre) in Es. rewrite mheld_opened, mheld_info in Es by done. injection Es as <-.
      exists (MPay [] [] (SStr c)), [], (length pre). cbn. unfold minf. cbn. rewrite Ev. cbn.
      split; [split; [|done]; split; [constructor|]; split; [done|by exists v]|]. split; [done|]. split; [done|]. split; [lia|]. split; [lia|done].
    - intros pre p is -> Z L. change (l_cur (mopened pre (blank p 0 0) [] (length pre) (is ++ [cinfo0]))) with (length pre) in Es. rewrite mheld_opened, mheld_info in Es by done. injection Es as <-.
      exists (MPay [] [] SFalse), [], (length pre). cbn. unfold minf. cbn.
      split; [split; [|done]; split; [constructor|done]|]. split; [done|]. split; [done|]. split; [lia|]. split; [lia|done].
    - intros pre n0 ks c is -> Fc C Z L. exists [], [], c. cbn. rewrite !app_nil_r. done.
    - intros pre n0 ks c is -> Fc C Z L. destruct (IH1 pre n0 ks c is eq_refl Fc C (or_introl Z) L) as (t & c1 & G1 & -> & -> & C1).
      destruct IH2 as [-> [b ->]].
      destruct (IH3 pre n0 (ks ++ [t]) c1 (is ++ dinfos minf t) eq_refl Fc C1 Z) as (us & ws & c' & Lw & G & -> & -> & C' & _).
      { rewrite app_length, dinfos_length, dsizes_app, dsizes_one. lia. }
      exists (t :: us), (b :: ws), c'. rewrite <- !app_assoc in *. cbn [app map concat litoks] in *. split; [cbn; lia|]. split; [by constructor|].
      split; [by rewrite <- !app_assoc|]. done.
    - split; [done|]. by exists false.
    - split; [done|]. by exists true.
  Qed.

  (** ** The grammar is unambiguous *)
  Definition munamb (t : mdoc) : Prop := forall t' r r', good t -> good t' -> mtoks t ++ r = mtoks t' ++ r' -> t = t' /\ r = r'.

  Lemma matoks_split l l' r r' : (match r with MtAttr _ _ :: _ => False | _ => True end) -> (match r' with MtAttr _ _ :: _ => False | _ => True end) ->
    matoks l ++ r = matoks l' ++ r' -> l = l' /\ r = r'.
  Proof.
    revert l'. induction l as [|[i v] l IH]; intros [|[i' v'] l'] H H' E; cbn in E; [done|by subst r|by subst r'|].
    injection E as -> -> E. destruct (IH l' H H' E) as [-> ->]. done.
  Qed.

  (** The first token of a value; that of a list is followed by no name. *)
  Definition vhead (x : @mtok F) : bool := match x with MtLp | MtChar _ | MtNum _ | MtStr _ | MtFalse => true | _ => false end.
  Lemma wrap_head nms v ks : exists x m, wrap nms (mvtoks v ks) = x :: m /\ vhead x = true.
  Proof. destruct nms; cbn; [|eauto]. destruct v; cbn; eauto. Qed.
  Lemma mtoks_head t : exists x m, mtoks t = x :: m /\ match x with MtWs | MtId _ | MtRp => False | _ => True end.
  Proof.
    destruct t as [a ks]. rewrite mtoks_eq. destruct (p_attrs a) as [|[i v] ats]; cbn; [|eexists _, _; by split].
    destruct (wrap_head (p_names a) (p_value a) (map mtoks ks)) as (x & m & E & V). exists x, m. split; [done|]. by destruct x.
  Qed.
  Lemma litoks_head ws ts r : exists x m, litoks ws (map mtoks ts) ++ MtRp :: r = x :: m /\ match x with MtWs | MtId _ => False | _ => True end.
  Proof.
    destruct ts as [|t ts], ws as [|b ws]; cbn; try (eexists _, _; by split).
    destruct (mtoks_head t) as (x & m & -> & H). cbn. eexists _, _. split; [done|]. by destruct x.
  Qed.

  Lemma munamb_list ts : forall ts' ws ws' r r', length ws = length ts -> length ws' = length ts' ->
    Forall (fun t => forall t' r r', t' ∈ ts' -> mtoks t ++ r = mtoks t' ++ r' -> t = t' /\ r = r') ts ->
    litoks ws (map mtoks ts) ++ MtRp :: r = litoks ws' (map mtoks ts') ++ MtRp :: r' -> ts = ts' /\ ws = ws' /\ r = r'.
  Proof.
    induction ts as [|t ts IH]; intros ts' ws ws' r r' Lw Lw' U E.
    - destruct ws; [|done]. destruct ts' as [|t' ts'], ws' as [|b' ws']; try done; cbn in E; [by injection E as ->|].
      destruct (mtoks_head t') as (x & m & Ex & H). rewrite Ex in E. cbn in E. injection E as <- _. done.
    - destruct ws as [|b ws]; [done|]. apply Forall_cons in U as [Ut Us]. destruct ts' as [|t' ts'], ws' as [|b' ws']; try done; cbn [map litoks] in E.
      + destruct (mtoks_head t) as (x & m & Ex & H). rewrite Ex in E. cbn in E. injection E as -> _. done.
      + rewrite <- !app_assoc in E. apply Ut in E as [-> E]; [|by left].
        destruct (litoks_head ws ts r) as (x & m & Ex & H), (litoks_head ws' ts' r') as (x' & m' & Ex' & H').
        assert (b = b' /\ litoks ws (map mtoks ts) ++ MtRp :: r = litoks ws' (map mtoks ts') ++ MtRp :: r') as [-> E'].
        { destruct b, b'; cbn [wstoks app] in E; [by injection E|rewrite Ex' in E; by injection E as <- _|rewrite Ex in E; by injection E as -> _|done]. }
        apply IH in E' as (-> & -> & ->); [done|by injection Lw|by injection Lw'|].
        eapply Forall_impl; [exact Us|]. cbn. intros u Hu u' s s' I. apply Hu. by right.
  Qed.

  Lemma munambiguous t : munamb t.
  Proof.
    induction t as [a ts IH] using doc_ind'. intros [b us] r r' G G' E. rewrite !mtoks_eq in E. rewrite doc_all_eq in *.
    destruct G as [[_ G] Gs], G' as [[_ G'] Gs']. destruct a as [nms ats v], b as [nms' ats' v']. cbn [p_names p_attrs p_value] in *.
    rewrite <- !app_assoc in E.
    apply matoks_split in E as [-> E].
    2: { destruct (wrap_head nms v (map mtoks ts)) as (x & m & -> & V). by destruct x. }
    2: { destruct (wrap_head nms' v' (map mtoks us)) as (x & m & -> & V). by destruct x. }
    revert nms' r r' E. induction nms as [|nm nms IHn]; intros nms' r r' E.
    - destruct nms' as [|nm' nms']; cbn [wrap] in E.
      + destruct v as [ws|x|x|s|], v' as [ws'|x'|x'|s'|]; cbn [mvtoks app mvgood] in *; try discriminate.
        * injection E as E. rewrite <- !app_assoc in E. cbn [app] in E.
          apply munamb_list in E as (-> & -> & ->); [done|done..|].
          apply Forall_forall. intros t I t' s s' I' E'. rewrite Forall_forall in IH, Gs, Gs'. apply (IH t I); [by apply Gs|by apply Gs'|done].
        * injection E as -> ->. destruct G as [-> _], G' as [-> _]. done.
        * injection E as -> ->. destruct G as [-> _], G' as [-> _]. done.
        * injection E as -> ->. destruct G as [-> _], G' as [-> _]. done.
        * injection E as ->. by subst.
      + exfalso. destruct v as [ws|x|x|s|]; cbn in E; try discriminate. injection E as E. rewrite <- !app_assoc in E. cbn [app] in E.
        destruct (litoks_head ws ts r) as (x & m & Ex & H). rewrite Ex in E. by injection E as -> _.
    - destruct nms' as [|nm' nms']; cbn [wrap] in E.
      + exfalso. destruct v' as [ws|x|x|s|]; cbn in E; try discriminate. injection E as E. rewrite <- !app_assoc in E. cbn [app] in E.
        destruct (litoks_head ws us r') as (x & m & Ex & H). rewrite Ex in E. by injection E as <- _.
      + cbn [app] in E. injection E as -> E. rewrite <- !app_assoc in E. cbn [app] in E.
        apply IHn in E as [[= -> -> ->] [= ->]]. done.
  Qed.
End Doc.
