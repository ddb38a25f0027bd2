(** Documents as libyaml delivers them and the tables mr_yaml_load builds. *)
From Verif Require Import Base Ptrs NumStr Parse ParseProof DfsProof Json Cinit Xml Yaml.

(** A node of a document: its key in a mapping, and itself. *)
Inductive ybody := BScalar (an : option (list Z)) (v : list Z) | BMap (an : option (list Z)) | BSeq (an : option (list Z)) | BAlias (a : list Z).
Record ypay := YPay { p_key : option (option (list Z) * list Z); p_body : ybody }.
Notation ydoc := (doc ypay).

(** The node and the descriptor made of it. *)
Definition yinf0 (a : ypay) : yread :=
  let nm := snd <$> p_key a in
  match p_body a with
  | BScalar _ v => YRead (Some v) false (match nm with None => true | Some _ => false end) false nm
  | BMap _ => YRead None false false false nm
  | BSeq _ => YRead None false true false nm
  | BAlias _ => YRead None false (match nm with None => true | Some _ => false end) false nm
  end.
Definition yinf (a : ypay) : yread :=
  match p_body a with BAlias al => (read_alias al fresh_node (yinf0 a)).2 | _ => yinf0 a end.
Definition yfin (a : ypay) (k : nat) (n : node) : node :=
  match p_body a with
  | BScalar an _ | BMap an | BSeq an => read_anchor an n
  | BAlias al => (read_alias al n (yinf0 a)).1
  end.

Lemma read_alias_info al n n' r : (read_alias al n r).2 = (read_alias al n' r).2.
Proof. unfold read_alias. destruct (scan_template _ _); [done|]. destruct (scan_template _ _); [done|]. by destruct (decide _). Qed.
Lemma yfin_next a k n v : set_next (yfin a k n) v = yfin a k (set_next n v).
Proof.
  unfold yfin, read_anchor, read_alias. destruct (p_body a) as [[an|] ?|[an|]|[an|]|al]; try done; repeat (destruct (scan_template _ _); try done).
  by destruct (decide _).
Qed.
Lemma yfin_parent a k n : parent (yfin a k n) = parent n.
Proof.
  unfold yfin, read_anchor, read_alias. destruct (p_body a) as [[an|] ?|[an|]|[an|]|al]; try done; repeat (destruct (scan_template _ _); try done).
  by destruct (decide _).
Qed.
Lemma read_anchor_child an n v : set_first_child (read_anchor an n) v = read_anchor an (set_first_child n v).
Proof. unfold read_anchor. destruct an; [|done]. by destruct (scan_template _ _). Qed.
Lemma read_anchor_first an n : first_child (read_anchor an n) = first_child n.
Proof. unfold read_anchor. destruct an; [|done]. by destruct (scan_template _ _). Qed.
Lemma read_anchor_ref an n : is_ref (read_anchor an n) = is_ref n.
Proof. unfold read_anchor. destruct an; [|done]. by destruct (scan_template _ _). Qed.

(** Events of a document. *)
Definition key_evs (a : ypay) : list yev := match p_key a with Some (an, nm) => [EScalar an nm] | None => [] end.
Fixpoint devs (t : ydoc) : list yev :=
  match t with
  | Doc a ks => key_evs a ++
    match p_body a with
    | BScalar an v => [EScalar an v]
    | BMap an => EMap an :: concat (map devs ks) ++ [EMapEnd]
    | BSeq an => ESeq an :: concat (map devs ks) ++ [ESeqEnd]
    | BAlias al => [EAlias al]
    end
  end.
Lemma devs_eq a ks : devs (Doc a ks) = key_evs a ++
    match p_body a with
    | BScalar an v => [EScalar an v]
    | BMap an => EMap an :: concat (map devs ks) ++ [EMapEnd]
    | BSeq an => ESeq an :: concat (map devs ks) ++ [ESeqEnd]
    | BAlias al => [EAlias al]
    end.
Proof. reflexivity. Qed.

Definition pay (t : ydoc) : ypay := match t with Doc a _ => a end.
Definition is_scalar (b : ybody) : bool := match b with BScalar _ _ => true | _ => false end.
Definition is_open (b : ybody) : bool := match b with BMap _ | BSeq _ => true | _ => false end.

Section Load.
  Context (known : list Z -> bool).

  (** What may stand in a sequence or at the top ([u]), or in a mapping. *)
  Definition yfits (u : bool) (a : ypay) : Prop :=
    match p_key a with
    | Some (_, nm) => u = false /\ known nm = true
    | None => u = true \/ is_scalar (p_body a) = false
    end.
  Definition ygood (a : ypay) (ks : list ydoc) : Prop :=
    match p_body a with
    | BScalar _ _ | BAlias _ => ks = []
    | BMap _ => Forall (fun d => yfits false (pay d)) ks
    | BSeq _ => Forall (fun d => yfits true (pay d)) ks
    end.
  Notation good := (doc_all ygood).
  Notation yopened := (opened (I := yread) yfin).

  Lemma yset_node pre n0 c is f : lset_node (yopened pre n0 [] c is) (length pre) f = Some (yopened pre (f n0) [] c is).
  Proof.
    unfold lset_node, opened, upd. cbn [l_ptrs l_info l_cur ra cache]. rewrite (rd_lu _ _ _ (own_lookup _ _ _ _)). cbn [mbind option_bind].
    unfold opened_ns. rewrite wr_Some by (rewrite app_length; cbn; lia). cbn [mbind option_bind].
    rewrite insert_app_r_alt by lia. rewrite Nat.sub_diag. cbn [insert list_insert].
    replace (own (length pre) ([] : list ydoc) n0) with n0 by (by destruct (length pre)).
    replace (own (length pre) ([] : list ydoc) (f n0)) with (f n0) by (by destruct (length pre)). done.
  Qed.
  Lemma yset_info pre n0 c is d f : length is = length pre ->
    lset_info (yopened pre n0 [] c (is ++ [d])) (length pre) f = Some (yopened pre n0 [] c (is ++ [f d])).
  Proof.
    intros L. unfold lset_info, opened. cbn [l_ptrs l_info l_cur]. unfold rd.
    rewrite lookup_app_r by lia. rewrite L, Nat.sub_diag. cbn [lookup list_lookup mbind option_bind].
    rewrite wr_Some by (rewrite app_length; cbn; lia). cbn [mbind option_bind].
    rewrite insert_app_r_alt by lia. rewrite L, Nat.sub_diag. done.
  Qed.

  Lemma lpop_cur (s s' : lst yread) : lpop s = Some s' -> s' = LSt (l_ptrs s) (l_info s) (l_cur s').
  Proof. unfold lpop. destruct (rd _ _); [|done]. cbn. by intros [= <-]. Qed.

  (** yaml_add_node. *)
  Lemma add_ok a pre n0 ks c is : length is = length pre + S (dsizes ks) -> first_child n0 = 0 -> cached (length pre) ks c -> length pre <> 0 \/ ks = [] ->
    exists pre', length pre' = length pre + S (dsizes ks) /\
      (forall t, pre' ++ table yfin (length pre) (length pre') 0 t = opened_ns yfin pre n0 (ks ++ [t])) /\
      match p_body a with
      | BScalar an v => add_node (snd <$> p_key a) (Some v) an None (match p_key a with None => true | Some _ => false end) (yopened pre n0 ks c is) =
          Some (yopened pre n0 (ks ++ [Doc a []]) (length pre') (is ++ [yinf a])) /\ cached (length pre) (ks ++ [Doc a []]) (length pre')
      | BAlias al => add_node (snd <$> p_key a) None None (Some al) (match p_key a with None => true | Some _ => false end) (yopened pre n0 ks c is) =
          Some (yopened pre n0 (ks ++ [Doc a []]) (length pre') (is ++ [yinf a])) /\ cached (length pre) (ks ++ [Doc a []]) (length pre')
      | BMap an => add_node (snd <$> p_key a) None an None false (yopened pre n0 ks c is) =
          Some (yopened pre' (yfin a (length pre') (blank (length pre) 0 0)) [] (length pre') (is ++ [yinf a]))
      | BSeq an => add_node (snd <$> p_key a) None an None true (yopened pre n0 ks c is) =
          Some (yopened pre' (yfin a (length pre') (blank (length pre) 0 0)) [] (length pre') (is ++ [yinf a]))
      end.
  Proof.
    intros Li F C D.
    assert (forall d, exists pre', length pre' = length pre + S (dsizes ks) /\
      lpush d (yopened pre n0 ks c is) = Some (yopened pre' (blank (length pre) 0 0) [] (length pre') (is ++ [d])) /\
      (forall t, pre' ++ table yfin (length pre) (length pre') 0 t = opened_ns yfin pre n0 (ks ++ [t]))) as P.
    { intros d. by apply push_ok; [apply yfin_next|apply yfin_parent|..]. }
    assert (forall value an alias u pre', length pre' = length pre + S (dsizes ks) ->
      (forall t, pre' ++ table yfin (length pre) (length pre') 0 t = opened_ns yfin pre n0 (ks ++ [t])) ->
      lpush (YRead value false u false (snd <$> p_key a)) (yopened pre n0 ks c is) =
        Some (yopened pre' (blank (length pre) 0 0) [] (length pre') (is ++ [YRead value false u false (snd <$> p_key a)])) ->
      forall n1 r1, (match alias with Some al => read_alias al (blank (length pre) 0 0) (YRead value false u false (snd <$> p_key a))
                     | None => (blank (length pre) 0 0, YRead value false u false (snd <$> p_key a)) end) = (n1, r1) ->
      add_node (snd <$> p_key a) value an alias u (yopened pre n0 ks c is) =
        Some (match value, alias with
              | None, None => yopened pre' (read_anchor an n1) [] (length pre') (is ++ [r1])
              | _, _ => LSt (l_ptrs (yopened pre' (read_anchor an n1) [] (length pre') (is ++ [r1]))) (is ++ [r1]) (length pre)
              end)) as A.
    { intros value an alias u pre' L T E n1 r1 R. unfold add_node. rewrite E. cbn [mbind option_bind].
      set (r0 := YRead value false u false (snd <$> p_key a)) in *.
      assert (rd (ra (l_ptrs (yopened pre' (blank (length pre) 0 0) [] (length pre') (is ++ [r0])))) (length pre') = Some (blank (length pre) 0 0)) as R1.
      { unfold opened. cbn [l_ptrs ra]. unfold rd. rewrite own_lookup. by destruct (length pre'). }
      assert (rd (l_info (yopened pre' (blank (length pre) 0 0) [] (length pre') (is ++ [r0]))) (length pre') = Some r0) as R2.
      { unfold opened. cbn [l_info]. unfold rd. rewrite lookup_app_r by lia. by replace (length pre' - length is) with 0 by lia. }
      change (l_cur (yopened pre' (blank (length pre) 0 0) [] (length pre') (is ++ [r0]))) with (length pre').
      rewrite R1. cbn [mbind option_bind]. rewrite R2.
      cbn [mbind option_bind]. rewrite R.
      rewrite yset_node. cbn [mbind option_bind]. rewrite yset_info by lia. cbn [mbind option_bind]. destruct value, alias; done. }
    destruct (p_body a) as [an v|an|an|al] eqn:Eb.
    - destruct (P (YRead (Some v) false (match p_key a with None => true | Some _ => false end) false (snd <$> p_key a))) as (pre' & L & E & T).
      exists pre'. split; [done|]. split; [done|].
      rewrite (A (Some v) an None _ pre' L T E _ _ eq_refl).
      destruct (pop_ok yfin yfin_next yfin_parent pre n0 ks pre' (read_anchor an (blank (length pre) 0 0)) a [] (length pre') (is ++ [yinf a]) T L) as [Po Ca].
      { unfold yfin. rewrite Eb. by destruct (length pre'). }
      { lia. } { lia. }
      split; [|done]. apply lpop_cur in Po. rewrite Po. unfold opened at 1. cbn [l_ptrs l_info l_cur].
      unfold yinf. rewrite Eb. unfold yinf0. rewrite Eb. by destruct (p_key a).
    - destruct (P (YRead None false false false (snd <$> p_key a))) as (pre' & L & E & T).
      exists pre'. split; [done|]. split; [done|]. rewrite (A None an None _ pre' L T E _ _ eq_refl).
      unfold yinf, yfin. rewrite Eb. unfold yinf0. rewrite Eb. done.
    - destruct (P (YRead None false true false (snd <$> p_key a))) as (pre' & L & E & T).
      exists pre'. split; [done|]. split; [done|]. rewrite (A None an None _ pre' L T E _ _ eq_refl).
      unfold yinf, yfin. rewrite Eb. unfold yinf0. rewrite Eb. done.
    - destruct (P (YRead None false (match p_key a with None => true | Some _ => false end) false (snd <$> p_key a))) as (pre' & L & E & T).
      exists pre'. split; [done|]. split; [done|].
      destruct (read_alias al (blank (length pre) 0 0) (YRead None false (match p_key a with None => true | Some _ => false end) false (snd <$> p_key a))) as [n1 r1] eqn:R.
      rewrite (A None None (Some al) _ pre' L T E _ _ R). cbn [read_anchor].
      assert (yinf0 a = YRead None false (match p_key a with None => true | Some _ => false end) false (snd <$> p_key a)) as Y0.
      { unfold yinf0. rewrite Eb. by destruct (p_key a). }
      assert (yinf a = r1) as ->.
      { unfold yinf. rewrite Eb, Y0, (read_alias_info al _ (blank (length pre) 0 0)), R. done. }
      destruct (pop_ok yfin yfin_next yfin_parent pre n0 ks pre' n1 a [] (length pre') (is ++ [r1]) T L) as [Po Ca].
      { unfold yfin. rewrite Eb, Y0, R. by destruct (length pre'). }
      { lia. } { lia. }
      split; [|done]. apply lpop_cur in Po. rewrite Po. done.
  Qed.

  Lemma cur_ok pre n0 ks c is r : is !! length pre = Some r -> cur_unnamed (yopened pre n0 ks c is) = Some (r_unnamed r).
  Proof. intros E. unfold cur_unnamed, opened. cbn [l_info l_cur]. by rewrite (rd_lu _ _ _ E). Qed.

  (** The flag that decides whether a scalar is a key. *)
  Definition place (pre : list node) (is : list yread) (u : bool) : Prop :=
    if decide (length pre = 0) then u = true else exists r, is !! length pre = Some r /\ r_unnamed r = u.

  Lemma place_app pre is is' u : length pre < length is -> place pre is u -> place pre (is ++ is') u.
  Proof. unfold place. intros L. destruct (decide _); [done|]. intros (r & E & U). exists r. split; [|done]. by rewrite lookup_app_l. Qed.

  Lemma flag_ok pre n0 ks c is u : place pre is u ->
    (if Nat.eqb (l_cur (yopened pre n0 ks c is)) 0 then Some true else cur_unnamed (yopened pre n0 ks c is)) = Some u.
  Proof.
    unfold place. change (l_cur _) with (length pre). destruct (decide (length pre = 0)) as [-> | Z]; [by intros -> |].
    intros (r & E & U). destruct (Nat.eqb_spec (length pre) 0); [done|]. rewrite (cur_ok _ _ _ _ _ r E). by rewrite U.
  Qed.

  Lemma yfin_open a k p nx : is_open (p_body a) = true -> first_child (yfin a k (blank p nx 0)) = 0 /\
    forall j (ks : list ydoc), j <> 0 -> own j ks (yfin a k (blank p nx 0)) = yfin a k (blank p nx (match ks with [] => 0 | _ => S j end)).
  Proof.
    intros O. unfold yfin. destruct (p_body a) as [an v|an|an|al]; try done.
    - split; [by rewrite read_anchor_first|]. intros j ks Zj. destruct j; [done|]. destruct ks; [done|]. cbn [own]. by rewrite read_anchor_child.
    - split; [by rewrite read_anchor_first|]. intros j ks Zj. destruct j; [done|]. destruct ks; [done|]. cbn [own]. by rewrite read_anchor_child.
  Qed.

  (** ** Documents are read *)
  Lemma yaccept t : good t -> forall u pre n0 ks c is, yfits u (pay t) -> place pre is u ->
    length is = length pre + S (dsizes ks) -> first_child n0 = 0 -> cached (length pre) ks c -> length pre <> 0 \/ ks = [] ->
    exists c', cached (length pre) (ks ++ [t]) c' /\ forall rest,
      read_events known (devs t ++ rest) (yopened pre n0 ks c is) = read_events known rest (yopened pre n0 (ks ++ [t]) c' (is ++ dinfos yinf t)).
  Proof.
    induction t as [a ts IH] using doc_ind'. rewrite doc_all_eq. intros [G Gs] u pre n0 ks c is Fi Pl Li F C D. cbn [pay] in Fi.
    destruct (add_ok a pre n0 ks c is Li F C D) as (pre' & L & T & A).
    assert (is_open (p_body a) = true -> forall uk, (forall d, d ∈ ts -> yfits uk (pay d)) -> r_unnamed (yinf a) = uk ->
      exists c', cached (length pre) (ks ++ [Doc a ts]) c' /\ forall rest,
        read_events known (concat (map devs ts) ++ (if uk then ESeqEnd else EMapEnd) :: rest)
          (yopened pre' (yfin a (length pre') (blank (length pre) 0 0)) [] (length pre') (is ++ [yinf a])) =
        read_events known rest (yopened pre n0 (ks ++ [Doc a ts]) c' (is ++ dinfos yinf (Doc a ts)))) as Op.
    { intros O uk Hk Hu. destruct (yfin_open a (length pre') (length pre) 0 O) as [F' Ow].
      assert (length pre' <> 0) as Z' by lia.
      assert (place pre' (is ++ [yinf a]) uk) as Pl'.
      { unfold place. destruct (decide _); [lia|]. exists (yinf a). split; [|done]. rewrite lookup_app_r by lia. by replace (length pre' - length is) with 0 by lia. }
      assert (forall ts', Forall (fun t => good t -> forall u pre n0 ks c is, yfits u (pay t) -> place pre is u ->
        length is = length pre + S (dsizes ks) -> first_child n0 = 0 -> cached (length pre) ks c -> length pre <> 0 \/ ks = [] ->
        exists c', cached (length pre) (ks ++ [t]) c' /\ forall rest,
          read_events known (devs t ++ rest) (yopened pre n0 ks c is) = read_events known rest (yopened pre n0 (ks ++ [t]) c' (is ++ dinfos yinf t))) ts' ->
        Forall good ts' -> (forall d, d ∈ ts' -> yfits uk (pay d)) -> forall ks' c1 is1, place pre' is1 uk -> length is1 = length pre' + S (dsizes ks') ->
        cached (length pre') ks' c1 -> (ks' = [] -> c1 = length pre') ->
        exists c2, cached (length pre') (ks' ++ ts') c2 /\ (ks' ++ ts' = [] -> c2 = length pre') /\ forall rest,
          read_events known (concat (map devs ts') ++ rest) (yopened pre' (yfin a (length pre') (blank (length pre) 0 0)) ks' c1 is1) =
          read_events known rest (yopened pre' (yfin a (length pre') (blank (length pre) 0 0)) (ks' ++ ts') c2 (is1 ++ concat (map (dinfos yinf) ts')))) as K.
      { intros ts' IH'. induction IH' as [|t ts' Ht _ IH']; intros Gs' Hk' ks' c1 is1 P1 L1 C1 Z1.
        - exists c1. rewrite !app_nil_r. split; [done|]. split; [done|]. intros rest. cbn [map concat app]. by rewrite ?app_nil_r.
        - apply Forall_cons in Gs' as [Gt Gs'].
          destruct (Ht Gt uk pre' (yfin a (length pre') (blank (length pre) 0 0)) ks' c1 is1) as (c2 & C2 & R2); [apply Hk'; by left|done|done|done|done|by left|].
          destruct (IH' Gs') with (ks' := ks' ++ [t]) (c1 := c2) (is1 := is1 ++ dinfos yinf t) as (c3 & C3 & Z3 & R3).
          { intros d Hd. apply Hk'. by right. }
          { apply place_app; [lia|done]. }
          { rewrite app_length, dinfos_length, dsizes_app, dsizes_one. lia. }
          { done. } { intros E. by destruct ks'. }
          exists c3. rewrite <- app_assoc in C3, Z3. split; [exact C3|]. split; [exact Z3|]. intros rest. cbn [map concat]. rewrite <- !app_assoc, R2, R3, <- !app_assoc. done. }
      destruct (K ts IH Gs Hk [] (length pre') (is ++ [yinf a])) as (c2 & C2 & Z2 & R2); [done|rewrite app_length; unfold dsizes; cbn; lia|apply cached_nil|done|].
      cbn [app] in C2, Z2, R2.
      assert (length pre' <= c2 /\ c2 < length pre' + S (dsizes ts)) as [B1 B2].
      { destruct ts as [|t1 ts1 _] using rev_ind; [rewrite (Z2 eq_refl); lia|]. destruct (C2 _ _ eq_refl). lia. }
      destruct (pop_ok yfin yfin_next yfin_parent pre n0 ks pre' (yfin a (length pre') (blank (length pre) 0 0)) a ts c2 (is ++ dinfos yinf (Doc a ts)) T L) as [Po Ca].
      { by rewrite (Ow (length pre') ts Z'). }
      { done. } { done. }
      exists c2. split; [done|]. intros rest. rewrite R2. cbn [dinfos] in Po |- *. rewrite <- app_assoc. cbn [app].
      assert (close_node uk (yopened pre' (yfin a (length pre') (blank (length pre) 0 0)) ts c2 (is ++ yinf a :: concat (map (dinfos yinf) ts))) =
        Some (yopened pre n0 (ks ++ [Doc a ts]) c2 (is ++ yinf a :: concat (map (dinfos yinf) ts)))) as Cl.
      { unfold close_node. change (l_cur (yopened pre' _ ts c2 _)) with (length pre'). destruct (Nat.eqb_spec (length pre') 0); [lia|].
        rewrite (cur_ok _ _ _ _ _ (yinf a)); [cbn [mbind option_bind]|rewrite lookup_app_r by lia; by replace (length pre' - length is) with 0 by lia].
        rewrite Hu, Bool.eqb_reflx. exact Po. }
      destruct uk; cbn [read_events]; rewrite Cl; done. }
    assert (forall rest s, match p_key a with Some (an, nm) => (exists x, (if Nat.eqb (l_cur s) 0 then Some true else cur_unnamed s) = Some x /\ x = false) /\ known nm = true
                      | None => is_scalar (p_body a) = false \/ (if Nat.eqb (l_cur s) 0 then Some true else cur_unnamed s) = Some true end ->
       read_events known (key_evs a ++ match p_body a with BScalar an v => EScalar an v | BMap an => EMap an | BSeq an => ESeq an | BAlias al => EAlias al end :: rest) s =
       (s' ← match p_body a with
        | BScalar an v => add_node (snd <$> p_key a) (Some v) an None (match p_key a with None => true | Some _ => false end) s
        | BAlias al => add_node (snd <$> p_key a) None None (Some al) (match p_key a with None => true | Some _ => false end) s
        | BMap an => add_node (snd <$> p_key a) None an None false s
        | BSeq an => add_node (snd <$> p_key a) None an None true s
        end; read_events known rest s')) as Hd.
    { intros rest s. unfold key_evs. destruct (p_key a) as [[kan nm]|].
      - intros [(x & E & ->) Kn]. cbn [app read_events fmap option_fmap option_map snd]. rewrite E. cbn [mbind option_bind]. rewrite Kn.
        destruct (p_body a); done.
      - intros H. cbn [app fmap option_fmap option_map]. destruct (p_body a); cbn [read_events]; try done.
        destruct H as [?|E]; [done|]. rewrite E. done. }
    assert (forall rest, read_events known (key_evs a ++ match p_body a with BScalar an v => EScalar an v | BMap an => EMap an | BSeq an => ESeq an | BAlias al => EAlias al end :: rest) (yopened pre n0 ks c is) =
       (s' ← match p_body a with
        | BScalar an v => add_node (snd <$> p_key a) (Some v) an None (match p_key a with None => true | Some _ => false end) (yopened pre n0 ks c is)
        | BAlias al => add_node (snd <$> p_key a) None None (Some al) (match p_key a with None => true | Some _ => false end) (yopened pre n0 ks c is)
        | BMap an => add_node (snd <$> p_key a) None an None false (yopened pre n0 ks c is)
        | BSeq an => add_node (snd <$> p_key a) None an None true (yopened pre n0 ks c is)
        end; read_events known rest s')) as H1.
    { intros rest. apply Hd. rewrite (flag_ok _ _ _ _ _ _ Pl). unfold yfits in Fi. destruct (p_key a) as [[kan nm]|].
      - destruct Fi as [-> Kn]. split; [by eexists|done].
      - destruct Fi as [-> | ?]; [by right|by left]. }
    unfold ygood in G. destruct (p_body a) as [an v|an|an|al] eqn:Eb.
    - subst ts. destruct A as [A Ca]. exists (length pre'). split; [done|]. intros rest. rewrite devs_eq, Eb, <- app_assoc. cbn [app]. rewrite H1, A. cbn. done.
    - destruct (Op eq_refl false) as (c' & Ca & R).
      { intros d Hd'. rewrite Forall_forall in G. by apply G. } { unfold yinf. rewrite Eb. unfold yinf0. by rewrite Eb. }
      exists c'. split; [done|]. intros rest. rewrite devs_eq, Eb, <- app_assoc. cbn [app]. rewrite H1, A. cbn [mbind option_bind]. rewrite <- app_assoc. apply R.
    - destruct (Op eq_refl true) as (c' & Ca & R).
      { intros d Hd'. rewrite Forall_forall in G. by apply G. } { unfold yinf. rewrite Eb. unfold yinf0. by rewrite Eb. }
      exists c'. split; [done|]. intros rest. rewrite devs_eq, Eb, <- app_assoc. cbn [app]. rewrite H1, A. cbn [mbind option_bind]. rewrite <- app_assoc. apply R.
    - subst ts. destruct A as [A Ca]. exists (length pre'). split; [done|]. intros rest. rewrite devs_eq, Eb, <- app_assoc. cbn [app]. rewrite H1, A. cbn. done.
  Qed.

  (** A stream with one document. *)
  Definition stream (t : ydoc) : list yev := EStreamStart :: EDocStart :: devs t ++ [EDocEnd; EStreamEnd].
  Lemma yload_doc t : good t -> yfits true (pay t) -> exists c,
    read_events known (stream t) (lstart yread0) = Some (LSt (Ptrs (fresh_node :: table yfin 0 1 0 t) c) (yread0 :: dinfos yinf t) 0).
  Proof.
    intros G Fi. destruct (yaccept t G true [] fresh_node [] 0 [yread0] Fi) as (c & _ & R); [done|done|done|apply cached_nil|by right|].
    exists c. unfold stream. cbn [read_events lstart l_cur Nat.eqb].
    change (LSt ptrs_init [yread0] 0) with (yopened [] fresh_node [] 0 [yread0]). rewrite R. cbn [read_events]. cbn.
    unfold opened, opened_ns. cbn [length app own tables]. by rewrite ?app_nil_r.
  Qed.
End Load.
