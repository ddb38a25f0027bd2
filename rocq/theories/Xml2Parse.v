(** What mr_xml2_load makes of a document of libxml2. *)
From Verif Require Import Base Ptrs NumStr Parse ParseProof Cinit Xml Xml2 Xml2Link.

Section Xdoc_ind.
  Context (P : xdoc -> Prop) (H1 : forall i nm ps ks, Forall P ks -> P (XE i nm ps ks)) (H2 : forall b c, P (XLeaf b c)).
  Fixpoint xdoc_ind' (x : xdoc) : P x :=
    match x with
    | XE i nm ps ks => H1 i nm ps ks ((fix go ks := match ks return Forall P ks with
        | [] => @List.Forall_nil _ P
        | k :: ks => @List.Forall_cons _ P k ks (xdoc_ind' k) (go ks) end) ks)
    | XLeaf b c => H2 b c
    end.
End Xdoc_ind.

Record wpay := WPay { y_tag : list Z; y_text : list Z; y_isnull : bool; y_ri : option nat; y_rf : option nat; y_rc : option nat }.
Definition opt_prop (ps : list (list Z * list Z)) (nm : list Z) : option (option nat) :=
  match get_prop ps nm with None => Some None | Some v => i ← prop_value v; Some (Some i) end.
Definition some {X} (o : option X) : bool := match o with Some _ => true | None => false end.
Definition pay_ref (a : wpay) : bool := some (y_rf a) || some (y_rc a).
Definition wfin (a : wpay) (k : nat) (n : node) : node :=
  let n := match y_ri a with Some i => set_idx i n | None => n end in
  let n := match y_rf a with Some i => set_ref i n | None => n end in
  match y_rc a with Some i => set_ref i n | None => n end.
Definition winf (a : wpay) : winfo := WInfo (Some (y_tag a)) (y_text a) (y_isnull a) (some (y_rc a)).

Lemma wfin_next a k n v : set_next (wfin a k n) v = wfin a k (set_next n v).
Proof. unfold wfin. by destruct (y_ri a), (y_rf a), (y_rc a). Qed.
Lemma wfin_parent a k n : parent (wfin a k n) = parent n.
Proof. unfold wfin. by destruct (y_ri a), (y_rf a), (y_rc a). Qed.
Lemma wfin_par a k n v : set_parent (wfin a k n) v = wfin a k (set_parent n v).
Proof. unfold wfin. by destruct (y_ri a), (y_rf a), (y_rc a). Qed.
Lemma wfin_ref a k n : is_ref n = false -> is_ref (wfin a k n) = pay_ref a.
Proof. unfold wfin, pay_ref. destruct (y_ri a), (y_rf a), (y_rc a); done. Qed.
Lemma wfin_child a k n v : pay_ref a = false -> set_first_child (wfin a k n) v = wfin a k (set_first_child n v).
Proof. unfold wfin, pay_ref. by destruct (y_ri a), (y_rf a), (y_rc a). Qed.
Lemma wfin_first a k n : pay_ref a = false -> first_child (wfin a k n) = first_child n.
Proof. unfold wfin, pay_ref. by destruct (y_ri a), (y_rf a), (y_rc a). Qed.

Section Load.
  Context (known : list Z -> bool).

  Definition wpay_of (nm : list Z) (ps : list (list Z * list Z)) (ks : list xdoc) : option wpay :=
    ri ← opt_prop ps txt_ref_idx; rf ← opt_prop ps txt_ref; rc ← opt_prop ps txt_ref_content;
    if known nm then Some (WPay nm (elem_content ks) (some (get_prop ps txt_isnull)) ri rf rc) else None.

  Fixpoint wdoc (x : xdoc) : option (doc wpay) :=
    match x with
    | XLeaf _ _ => None
    | XE _ nm ps ks =>
      a ← wpay_of nm ps ks;
      ds ← (fix go ks := match ks with
            | [] => Some []
            | XLeaf _ _ :: ks => go ks
            | x :: ks => d ← wdoc x; ds ← go ks; Some (d :: ds)
            end) ks;
      if pay_ref a && negb (Nat.eqb (length ds) 0) then None else Some (Doc a ds)
    end.
  Fixpoint wdocs (ks : list xdoc) : option (list (doc wpay)) :=
    match ks with
    | [] => Some []
    | XLeaf _ _ :: ks => wdocs ks
    | x :: ks => d ← wdoc x; ds ← wdocs ks; Some (d :: ds)
    end.
  Lemma wdoc_eq i nm ps ks : wdoc (XE i nm ps ks) =
    a ← wpay_of nm ps ks; ds ← wdocs ks; if pay_ref a && negb (Nat.eqb (length ds) 0) then None else Some (Doc a ds).
  Proof.
    cbn [wdoc]. destruct (wpay_of nm ps ks) as [a|]; [|done]. cbn [mbind option_bind].
    assert (forall l, (fix go ks := match ks with
            | [] => Some []
            | XLeaf _ _ :: ks => go ks
            | x :: ks => d ← wdoc x; ds ← go ks; Some (d :: ds)
            end) l = wdocs l) as ->; [|done].
    induction l as [|[j m q r|b c] l IH]; [done| |exact IH]. cbn [wdocs]. rewrite <- IH. done.
  Qed.

  Fixpoint kids_loop (idx : nat) (ks : list xdoc) (p : ptrs) (inf : list winfo) : option (nat * ptrs * list winfo) :=
    match ks with
    | [] => Some (idx, p, inf)
    | XLeaf _ _ :: ks => kids_loop idx ks p inf
    | x :: ks =>
      n ← rd (ra p) idx;
      if is_ref n then None else
      r ← xml2_load known x p inf;
      p ← add_child r.1.2 idx r.1.1;
      kids_loop idx ks p r.2
    end.

  Lemma props_ok ps nm (set : nat -> node -> node) ns n : 
    load_property ps nm set (length ns) (ns ++ [n]) =
    o ← opt_prop ps nm; Some (ns ++ [match o with Some i => set i n | None => n end]).
  Proof.
    unfold load_property, opt_prop. destruct (get_prop ps nm) as [v|]; [|done]. destruct (prop_value v) as [i|]; [|done]. cbn [mbind option_bind].
    unfold upd, rd. rewrite lookup_app_r, Nat.sub_diag by lia. cbn [lookup list_lookup mbind option_bind].
    rewrite wr_Some by (rewrite app_length; cbn; lia). rewrite insert_app_r_alt, Nat.sub_diag by lia. done.
  Qed.

  Lemma load_open i nm ps ks ns c inf : length ns <> 0 -> xml2_load known (XE i nm ps ks) (Ptrs ns c) inf =
    a ← wpay_of nm ps ks; kids_loop (length ns) ks (Ptrs (ns ++ [wfin a (length ns) (blank 0 0 0)]) c) (inf ++ [winf a]).
  Proof.
    intros Z. cbn [xml2_load add_ptr ra cache]. destruct (Nat.eqb_spec (length ns) 0); [done|].
    rewrite props_ok. unfold wpay_of. destruct (opt_prop ps txt_ref_idx) as [ri|] eqn:E1; [|done]. cbn [mbind option_bind].
    rewrite props_ok. destruct (opt_prop ps txt_ref) as [rf|] eqn:E2; [|done]. cbn [mbind option_bind].
    rewrite props_ok. destruct (opt_prop ps txt_ref_content) as [rc|] eqn:E3; [|done]. cbn [mbind option_bind].
    destruct (known nm); [|done]. cbn [negb mbind option_bind].
    assert (match get_prop ps txt_ref_content with Some _ => true | None => false end = some rc) as ->.
    { unfold opt_prop in E3. destruct (get_prop ps txt_ref_content) as [v|]; [|by injection E3 as <-]. destruct (prop_value v); [|done]. by injection E3 as <-. }
    cbv zeta. unfold winf, wfin. cbn [y_tag y_text y_isnull y_ri y_rf y_rc].
    change (match get_prop ps txt_isnull with Some _ => true | None => false end) with (some (get_prop ps txt_isnull)).
    generalize (inf ++ [WInfo (Some nm) (elem_content ks) (some (get_prop ps txt_isnull)) (some rc)]). intros is.
    change fresh_node with (blank 0 0 0).
    generalize (Ptrs (ns ++ [match rc with Some i0 => set_ref i0 match rf with Some i1 => set_ref i1 match ri with Some i2 => set_idx i2 (blank 0 0 0) | None => blank 0 0 0 end | None => match ri with Some i1 => set_idx i1 (blank 0 0 0) | None => blank 0 0 0 end end | None => match rf with Some i0 => set_ref i0 match ri with Some i1 => set_idx i1 (blank 0 0 0) | None => blank 0 0 0 end | None => match ri with Some i0 => set_idx i0 (blank 0 0 0) | None => blank 0 0 0 end end end]) c).
    clear. revert is. induction ks as [|[j m q r|b c] ks IH]; intros is p; [done| |apply IH]. cbn [kids_loop].
    destruct (rd (ra p) (length ns)) as [x|]; [|done]. cbn [mbind option_bind]. destruct (is_ref x); [done|].
    destruct (xml2_load known (XE j m q r) p is) as [[[k p1] is1]|]; [|done]. cbn [mbind option_bind fst snd].
    destruct (add_child p1 (length ns) k) as [p2|]; [|done]. cbn [mbind option_bind]. apply IH.
  Qed.

  Definition goal (x : xdoc) : Prop := forall ns c inf, length ns <> 0 ->
    match wdoc x with
    | None => xml2_load known x (Ptrs ns c) inf = None
    | Some d => exists c', xml2_load known x (Ptrs ns c) inf =
        Some (length ns, Ptrs (ns ++ table wfin 0 (length ns) 0 d) c', inf ++ dinfos winf d) /\
        (c' = c \/ (length ns <= c' /\ c' < length ns + dsize d))
    end.

  Lemma loop_ok ks : Forall goal ks -> forall pre n0 ds c inf, length pre <> 0 -> first_child n0 = 0 -> is_ref n0 = false ->
    (forall vs u, ds = vs ++ [u] -> c = S (length pre) + dsizes vs) ->
    match wdocs ks with
    | None => kids_loop (length pre) ks (Ptrs (opened_ns wfin pre n0 ds) c) inf = None
    | Some ds' => exists c', kids_loop (length pre) ks (Ptrs (opened_ns wfin pre n0 ds) c) inf =
        Some (length pre, Ptrs (opened_ns wfin pre n0 (ds ++ ds')) c', inf ++ concat (map (dinfos winf) ds')) /\
        (c' = c \/ (length pre <= c' /\ c' < length pre + S (dsizes (ds ++ ds'))))
    end.
  Proof.
    induction 1 as [|x ks Hx Hks IH]; intros pre n0 ds c inf Z F R C.
    { cbn. rewrite !app_nil_r. exists c. by split; [|left]. }
    destruct x as [i nm ps xs|b cc]; [|by apply IH]. cbn [wdocs kids_loop].
    unfold rd. cbn [ra]. rewrite own_lookup. cbn [mbind option_bind].
    assert (is_ref (own (length pre) ds n0) = false) as -> by (unfold own; by destruct (length pre), ds).
    set (O := opened_ns wfin pre n0 ds).
    assert (length O = length pre + S (dsizes ds)) as Lo by apply opened_length.
    specialize (Hx O c inf ltac:(lia)). destruct (wdoc (XE i nm ps xs)) as [d|]; [|by rewrite Hx].
    destruct Hx as (c1 & E1 & C1). rewrite E1. cbn [mbind option_bind fst snd].
    unfold O. rewrite (link_ok wfin wfin_next wfin_parent wfin_par pre n0 ds d c1 Z F).
    2: { fold O. intros vs u Ed. destruct C1 as [->|C1]; [left; by apply (C vs u)|by right]. }
    cbn [mbind option_bind]. specialize (IH pre n0 (ds ++ [d]) (length O) (inf ++ dinfos winf d) Z F R).
    fold O. 
    destruct (wdocs ks) as [ds'|]; cbn [mbind option_bind].
    - destruct IH as (c' & E & C').
      + intros vs u Ed. apply app_inj_2 in Ed as [<- _]; [|done]. lia.
      + exists c'. rewrite E. rewrite <- !app_assoc. cbn [app map concat]. split; [done|]. rewrite <- app_assoc in C'. cbn [app] in C'. right.
        destruct C' as [->|C']; [|done]. rewrite dsizes_app, dsizes_cons. pose proof (dsize_pos d). lia.
    - apply IH. intros vs u Ed. apply app_inj_2 in Ed as [<- _]; [|done]. lia.
  Qed.

  Lemma loop_ref ks pre n c inf : length pre <> 0 -> is_ref n = true ->
    (exists ds, wdocs ks = Some ds /\ ds = [] /\ kids_loop (length pre) ks (Ptrs (pre ++ [n]) c) inf = Some (length pre, Ptrs (pre ++ [n]) c, inf)) \/
    (wdocs ks <> Some [] /\ kids_loop (length pre) ks (Ptrs (pre ++ [n]) c) inf = None).
  Proof.
    intros Z R. induction ks as [|[i nm ps xs|b cc] ks IH].
    - left. by exists [].
    - right. cbn [wdocs kids_loop]. split; [destruct (wdoc _), (wdocs ks); done|]. unfold rd. cbn [ra]. rewrite lookup_app_r, Nat.sub_diag by lia. cbn. by rewrite R.
    - cbn [wdocs kids_loop]. exact IH.
  Qed.

  Lemma load_ok x : goal x.
  Proof.
    induction x as [i nm ps ks IH|b c] using xdoc_ind'; [|intros ns c' inf _; done]. intros ns c inf Z.
    rewrite load_open by done. rewrite wdoc_eq. destruct (wpay_of nm ps ks) as [a|]; [|done]. cbn [mbind option_bind].
    destruct (pay_ref a) eqn:Pr.
    - destruct (loop_ref ks ns (wfin a (length ns) (blank 0 0 0)) c (inf ++ [winf a]) Z) as [(ds & E & -> & El)|[E El]]; [by rewrite wfin_ref| |].
      + rewrite E. cbn [mbind option_bind length Nat.eqb negb andb]. exists c. rewrite El. rewrite table_eq. cbn [tables dinfos map concat]. split; [done|by left].
      + rewrite El. destruct (wdocs ks) as [[|d ds]|]; [done| |done]. done.
    - pose proof (loop_ok ks IH ns (wfin a (length ns) (blank 0 0 0)) [] c (inf ++ [winf a]) Z) as L.
      rewrite wfin_first, wfin_ref in L by done. cbn [blank first_child is_ref] in L. specialize (L eq_refl Pr ltac:(intros vs u E; by destruct vs)).
      assert (opened_ns wfin ns (wfin a (length ns) (blank 0 0 0)) [] = ns ++ [wfin a (length ns) (blank 0 0 0)]) as Eo.
      { unfold opened_ns. cbn [tables]. unfold own. by destruct (length ns). }
      rewrite Eo in L. destruct (wdocs ks) as [ds|]; [|exact L]. cbn [mbind option_bind andb]. destruct L as (c' & E & C'). exists c'. rewrite E. split; [|exact C'].
      cbn [app]. rewrite table_eq. cbn [dinfos]. rewrite <- app_assoc. cbn [app]. do 4 f_equal. unfold opened_ns. f_equal. f_equal.
      unfold own. destruct (length ns) eqn:El; [done|]. destruct ds; [done|]. rewrite wfin_child by done. done.
  Qed.

  Lemma load_some x d : wdoc x = Some d -> exists c', xml2_load_doc known x =
    Some (Ptrs (fresh_node :: table wfin 0 1 0 d) c', winfo0 :: dinfos winf d).
  Proof.
    intros E. pose proof (load_ok x [fresh_node] 0 [winfo0] ltac:(done)) as L. rewrite E in L. destruct L as (c' & L & _).
    exists c'. unfold xml2_load_doc. change ptrs_init with (Ptrs [fresh_node] 0). rewrite L. done.
  Qed.
  Lemma load_none x : wdoc x = None -> xml2_load_doc known x = None.
  Proof.
    intros E. pose proof (load_ok x [fresh_node] 0 [winfo0] ltac:(done)) as L. rewrite E in L.
    unfold xml2_load_doc. change ptrs_init with (Ptrs [fresh_node] 0). by rewrite L.
  Qed.
End Load.
