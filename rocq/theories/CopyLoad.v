(** The parsed tree fits the types it was saved with, for the proof of C77. *)
From stdpp Require Import list sets countable.
From Verif Require Import Base Ptrs DfsProof PruneProof TreeFacts Save SaveSpec Json JsonSpec Copy CopySpec CopyTree CopyPrint.
From Verif Require Load LoadSpec LoadFits.
Local Open Scope Z_scope.

Section Load.
  Context (W : world) (names : nat -> list Z) (known : list Z -> bool) (wrapv : bool) (cstr : Z -> list Z) (shown : Z -> Z -> fd -> jkind) (st : sst).
  Context (leaf : Load.node -> Load.stype -> bool * bool) (d0 : dtree) (ns : list node) (ps : list pinfo).
  Notation env := (load_env W names).
  Notation js := (map (print_info W names cstr shown) (s_info st)).
  Notation pub := (public (lns st)).
  Hypothesis HW : wf_world W.
  Hypothesis HP : plain_world W names known.
  Hypothesis HS : printable wrapv cstr shown.
  Hypothesis Hleaf : readable shown leaf.
  Hypothesis HT : tree_at (lns st) 0 0 (shape d0).
  Hypothesis HL : Forall (fun x => local W st x /\ fine W names (d_g x)) (flat d0).
  Hypothesis HQ : forall i n, i <> 0%nat -> lns st !! i = Some n -> i ∈ nodes (shape d0) \/
      parent n ∈ nodes (shape d0) /\ exists q, s_info st !! parent n = Some q /\ i_type q = T_STRING.
  Hypothesis Num : numbered (lns st) (shape d0).
  Hypothesis Sz : Z.of_nat (length (flat d0)) < 2 ^ 32 - 1.
  Hypothesis HT' : tree_at ns 0 0 (rename pub (shape d0)).
  Hypothesis HI : forall j m, ns !! j = Some m -> pub_idx m = j.
  Hypothesis HR : forall i, i ∈ nodes (shape d0) -> exists n d p, lns st !! i = Some n /\ js !! i = Some d /\
      ps !! pub_idx n = Some p /\ node_read (lns st) js n d p.

  Definition lnode (d : dtree) : Load.node := load_node ns ps (rename pub (shape d)).

  Lemma idx_lnode d : Load.n_idx (lnode d) = pub (d_i d).
  Proof. by destruct d. Qed.
  Lemma kids_lnode d : Load.n_kids (lnode d) = map lnode (d_ks d).
  Proof. destruct d as [i e g a o ks]. unfold lnode. cbn. by rewrite !map_map. Qed.
  Lemma subtree_lnode d : Load.subtree (lnode d) = map lnode (flat d).
  Proof.
    induction d as [i e g a o ks IH] using dtree_ind'. 
    assert (forall nd, Load.subtree nd = nd :: concat (map Load.subtree (Load.n_kids nd))) as -> by (by intros []).
    rewrite kids_lnode. cbn [flat map d_ks]. f_equal. induction IH as [|k ks Hk _ IHk]; [done|]. cbn [map concat]. by rewrite Hk, IHk, map_app.
  Qed.

  Lemma local_at d : d ∈ flat d0 -> local W st d /\ fine W names (d_g d).
  Proof. intros Hd. pose proof HL as HL'. rewrite Forall_forall in HL'. by apply HL'. Qed.
  Lemma in_nodes d : d ∈ flat d0 -> d_i d ∈ nodes (shape d0).
  Proof. intros Hd. rewrite flat_nodes. by apply elem_of_list_In, in_map, elem_of_list_In. Qed.
  Lemma of_node r : r ∈ nodes (shape d0) -> exists d, d ∈ flat d0 /\ d_i d = r.
  Proof. rewrite flat_nodes. intros Hi. apply elem_of_list_In, in_map_iff in Hi as (d & E & Hd). apply elem_of_list_In in Hd. eauto. Qed.

  Lemma pub_at k d : flat d0 !! k = Some d -> pub (d_i d) = S k.
  Proof.
    intros H. pose proof (elem_of_list_lookup_2 _ _ _ H) as Hd. destruct (local_at d Hd) as [Ld _]. destruct (local_stands W st d Ld) as (x & n & _ & En & _).
    unfold public. rewrite En. apply (Num k (d_i d) n); [|done]. rewrite flat_nodes. change (map d_i (flat d0)) with (d_i <$> flat d0). by rewrite list_lookup_fmap, H.
  Qed.
  Lemma index_of d : d ∈ flat d0 -> exists k, flat d0 !! k = Some d /\ pub (d_i d) = S k.
  Proof. intros Hd. apply elem_of_list_lookup in Hd as [k H]. exists k. split; [done|by apply pub_at]. Qed.
  Lemma pub_inj d d' : d ∈ flat d0 -> d' ∈ flat d0 -> pub (d_i d) = pub (d_i d') -> d = d'.
  Proof. intros Hd Hd' E. destruct (index_of d Hd) as (k & H & E1), (index_of d' Hd') as (k' & H' & E2). assert (k' = k) as -> by lia. congruence. Qed.

  Lemma id_lnode d : d ∈ flat d0 -> Load.n_id (lnode d) = Z.of_nat (pub (d_i d)).
  Proof.
    intros Hd. destruct (flat_tree ns pub d0 0 0 HT' d Hd) as (p & nx & A). destruct d as [i e g a o ks]. cbn [shape rename] in A. rewrite tree_at_eq in A.
    destruct A as (n & En & _). unfold lnode. cbn. rewrite En. cbn. by rewrite (HI _ _ En).
  Qed.

  (** What is known of a node: saved, printed, parsed. *)
  Lemma seen d : d ∈ flat d0 -> exists x n p, stands st (d_i d) (d_g d) (d_a d) x n /\ ps !! pub (d_i d) = Some p /\
    node_read (lns st) js n (print_info W names cstr shown x) p /\
    Load.n_null (lnode d) = p_null p /\ Load.n_val (lnode d) = load_value (p_val p) /\ Load.n_ref (lnode d) = None /\ Load.n_typed (lnode d) = false /\
    Load.n_fd (lnode d) = (match p_name p with Some s => Some (Some (name_code s), None) | None => None end).
  Proof.
    intros Hd. destruct (local_at d Hd) as [Ld _]. destruct (local_stands W st d Ld) as (x & n & S). pose proof S as (Ex & En & _).
    destruct (HR _ (in_nodes d Hd)) as (n' & dd & p & En' & Ed & Ep & Rd). assert (n' = n) as -> by congruence.
    rewrite (js_at W names cstr shown st _ _ Ex) in Ed. injection Ed as <-. assert (pub (d_i d) = pub_idx n) as Epub by (unfold public; by rewrite En).
    exists x, n, p. split; [done|]. split; [by rewrite Epub|]. split; [done|]. destruct d as [i e g a o ks]. unfold lnode. cbn [d_i] in *. cbn. rewrite Epub, Ep. done.
  Qed.

  Lemma tree_good : LoadSpec.tree_ok (Load.subtree (lnode d0)) (lnode d0).
  Proof.
    assert (Kid : forall d c, d ∈ flat d0 -> c ∈ d_ks d -> Load.n_par (lnode c) = pub (d_i d)).
    { intros d c Hd Hc. destruct (flat_parent ns pub d0 0 0 d c HT' Hd Hc) as (n & En & Pn & _). destruct c. unfold lnode. cbn in *. by rewrite En. }
    rewrite subtree_lnode. split; [|split; [|split]].
    - destruct (tree_at_root _ _ _ _ HT') as (_ & n & En & Pn & _). destruct d0. unfold lnode. cbn in *. by rewrite En.
    - rewrite subtree_lnode. change (map lnode (flat d0)) with (lnode <$> flat d0). apply NoDup_alt. intros i j x. rewrite !list_lookup_fmap. intros Hi Hj. apply fmap_Some in Hi as (m & Hi & ->), Hj as (m' & Hj & E).
      apply fmap_Some in Hi as (d & Hi & ->), Hj as (d' & Hj & ->). rewrite !idx_lnode, (pub_at _ _ Hi), (pub_at _ _ Hj) in E. by injection E.
    - intros m Hm. rewrite subtree_lnode in Hm. apply elem_of_list_In, in_map_iff in Hm as (d & <- & Hd). apply elem_of_list_In in Hd.
      destruct (index_of d Hd) as (k & Hk & Ek). rewrite idx_lnode, Ek. split; [lia|]. intros c Hc. rewrite kids_lnode in Hc.
      apply elem_of_list_In, in_map_iff in Hc as (c' & <- & Hc). apply elem_of_list_In in Hc. rewrite (Kid d c' Hd Hc). split; [done|].
      destruct (flat_kid d0 k d c' Hk Hc) as (k' & L & Hk'). rewrite idx_lnode, (pub_at _ _ Hk'). lia.
    - intros m Hm. rewrite subtree_lnode in Hm. apply elem_of_list_In, in_map_iff in Hm as (d & <- & Hd). apply elem_of_list_In in Hd.
      destruct (index_of d Hd) as (k & Hk & Ek). rewrite idx_lnode, Ek. change ((lnode <$> flat d0) !! k = Some (lnode d)). by rewrite list_lookup_fmap, Hk.
  Qed.

  Definition d_at (j : nat) : dtree := default d0 (flat d0 !! pred j).
  Definition ty (j : nat) : Load.stype := load_stype (d_g (d_at j)).
  Definition off (j : nat) : Z := d_o (d_at j).
  Lemma at_idx d : d ∈ flat d0 -> d_at (Load.n_idx (lnode d)) = d.
  Proof. intros Hd. destruct (index_of d Hd) as (k & Hk & Ek). unfold d_at. rewrite idx_lnode, Ek. cbn. by rewrite Hk. Qed.
  Lemma ty_idx d : d ∈ flat d0 -> ty (Load.n_idx (lnode d)) = load_stype (d_g d).
  Proof. intros Hd. unfold ty. by rewrite at_idx. Qed.
  Lemma off_idx d : d ∈ flat d0 -> off (Load.n_idx (lnode d)) = d_o d.
  Proof. intros Hd. unfold off. by rewrite at_idx. Qed.

  Lemma name_inj s s' : name_code s = name_code s' -> s = s'.
  Proof. unfold name_code. intros [= E]. by apply (inj encode). Qed.

  Lemma suits_elem t d : d ∈ flat d0 -> LoadFits.suits_type t (lnode d).
  Proof. intros Hd. destruct (seen d Hd) as (x & n & p & _ & _ & _ & _ & _ & _ & Et & _). unfold LoadFits.suits_type. rewrite Et. by destruct (Load.n_fd _) as [[]|]. Qed.

  (** What is read for a node that has a value of its own. *)
  Lemma leaf_seen d : d ∈ flat d0 -> d_ks d = [] -> (f_type (d_g d) = T_CHAR_ARRAY \/ single (f_type (d_g d))) -> 
    exists h p, declares h (d_g d) /\ ps !! pub (d_i d) = Some p /\ Load.n_val (lnode d) = load_value (p_val p) /\ Load.n_null (lnode d) = p_null p /\
      (leaf_read (shown (d_a d) (f_type (d_g d)) h) (p_val p) (p_null p) \/
       (f_type (d_g d) = T_FUNC \/ f_type (d_g d) = T_FUNC_TYPE) /\ w_ptr W (d_a d) = Some 0 /\ p_null p = true /\ p_val p = LInt 0).
  Proof.
    intros Hd Hk Hs. destruct (seen d Hd) as (x & n & p & S & Ep & Rd & En & Ev & _). destruct (local_at d Hd) as [Ld _].
    pose proof S as (Ex & Enn & Ea & Et & _ & _ & Nl & h & Eh & _ & Etd & Hh). exists h, p. split; [done|]. split; [done|]. split; [done|]. split; [done|].
    destruct Rd as [_ Rd].
    assert (print_kind W cstr shown x = shown (d_a d) (f_type (d_g d)) h) as Ek.
    { unfold print_kind. rewrite Et, Ea, Eh. destruct Hs as [->|(S1 & S2 & S3 & S4 & S5 & S6 & S7 & S8)]; [done|].
      apply Z.eqb_neq in S2, S5, S6, S7. by rewrite S2, S5, S6, S7, S8. }
    cbn [print_info j_null j_kind j_cref] in Rd. rewrite Ek in Rd.
    destruct Ld as [i e g a o ks xd nd k t S' Ty|i e g a o ks xd nd cnt S' Ty|i e g a o xd nd q c' S' Ty|i e g a o xd nd S' B]; cbn [d_i d_g d_ks d_a] in *.
    { exfalso. destruct Hs as [Hs|Hs]; [rewrite Ty in Hs; done|]. destruct Hs as (_ & _ & _ & _ & Hs & _). done. }
    { exfalso. destruct Hs as [Hs|Hs]; [rewrite Ty in Hs; done|]. destruct Hs as (_ & _ & _ & _ & _ & Hs & _). done. }
    { done. }
    destruct S' as (Exd & End & _). assert (xd = x) as -> by congruence. assert (nd = n) as -> by congruence.
    assert (f_type g <> T_POINTER /\ f_type g <> T_STRING) as [N1 N2].
    { destruct Hs as [->|(_ & S2 & _ & _ & _ & _ & S7 & _)]; [done|done]. }
    unfold bare in B. destruct (Z.eqb_spec (f_type g) T_POINTER); [done|]. destruct (Z.eqb_spec (f_type g) T_STRING); [done|].
    destruct ((f_type g =? T_FUNC) || (f_type g =? T_FUNC_TYPE)) eqn:Ef.
    - destruct B as (Rn & q & Eq & Enl). rewrite Rn in Rd. rewrite Enl in Rd. destruct (Z.eqb_spec q 0) as [Eq0|Nq]; [|by left]. rewrite Eq0 in Eq.
      right. split; [apply orb_prop in Ef as [Ef|Ef]; apply Z.eqb_eq in Ef; auto|]. destruct Rd. done.
    - destruct B as (Rn & _). rewrite Rn in Rd. left. rewrite Nl in Rd; [done|]. unfold ptr_or_str. apply Z.eqb_neq in N1, N2. by rewrite N1, N2.
  Qed.

  Lemma fits_all m : m ∈ Load.subtree (lnode d0) -> LoadFits.fits env leaf ty off m.
  Proof.
    rewrite subtree_lnode. intros Hm. apply elem_of_list_In, in_map_iff in Hm as (d & <- & Hd). apply elem_of_list_In in Hd.
    unfold LoadFits.fits. rewrite (ty_idx d Hd), kids_lnode.
    destruct (local_at d Hd) as [Ld Fd]. destruct (seen d Hd) as (x & n & p & S & Ep & Rd & En & Ev & Er & _).
    assert (Kids : forall y m, map lnode (d_ks d) !! y = Some m -> exists c, d_ks d !! y = Some c /\ m = lnode c /\ c ∈ flat d0).
    { intros y m Hy. change (map lnode (d_ks d)) with (lnode <$> d_ks d) in Hy. rewrite list_lookup_fmap in Hy. apply fmap_Some in Hy as (c & Hc & ->).
      exists c. split; [done|]. split; [done|]. apply (flat_kid_in d0 d c Hd). by eapply elem_of_list_lookup_2. }
    pose proof Ld as Ld0.
    destruct Ld as [i e g a o ks xd nd k t S' Ty Nr Etd Et FF|i e g a o ks xd nd cnt S' Ty Nr U FF|i e g a o xd nd q c' S' Ty Nr Nn Eq Nq A1 A2 E1 E2 E3 E4|i e g a o xd nd S' B]; cbn [d_i d_g d_ks d_a] in *.
    - (* a structure *)
      unfold load_stype. rewrite Ty. cbn [Z.eqb]. change (load_kind T_STRUCT) with Load.Struct. cbn [Load.s_kind Load.s_td].
      exists (load_td names t), (seq 0 (length ks)). rewrite Etd. cbn [Load.get_td mbind option_bind]. split; [unfold load_env; change (map (load_td names) (w_tds W)) with (load_td names <$> w_tds W); by rewrite list_lookup_fmap, Et|].
      split; [by rewrite seq_length, map_length|]. split; [apply NoDup_seq|]. intros y m Hy. destruct (Kids y m Hy) as (c & Hc & -> & Hin).
      destruct (Forall2_lookup_r _ _ _ _ _ FF Hc) as (f & Hf & _ & Ef & _ & Eo). exists y, (load_fd names f).
      split; [rewrite lookup_seq; split; [done|by eapply lookup_lt_Some]|]. split; [cbn; change (map (load_fd names) (t_fields t)) with (load_fd names <$> t_fields t); by rewrite list_lookup_fmap, Hf|].
      destruct (seen c Hin) as (xc & nc & pc & Sc & Epc & Rdc & _ & _ & _ & Etc & Efc).
      assert (c ∈ d_ks (D i e g a o ks)) as Hck by (cbn; by eapply elem_of_list_lookup_2).
      destruct (kid_named W names known cstr shown st d0 HW HP HT HL (D i e g a o ks) c xc nc Hd Hck Sc) as (_ & _ & K).
      cbn [d_g] in K. rewrite Ty in K. cbn in K. destruct K as (In & _ & Efd & _ & _). destruct Rdc as [Rdn _]. rewrite In in Rdn. cbn in Rdn. rewrite Efd, Ef in Rdn. rewrite Rdn in Efc.
      split; [|split; [|split; [by rewrite ty_idx, Ef by done|by rewrite off_idx by done]]].
      + unfold LoadFits.suits. rewrite Efc. split; [by rewrite Etc|]. right. by right; right.
      + left. exists (name_code (names (f_name f))), None. split; [done|]. split; [done|]. intros j h Hj Hh E. cbn in Hh.
        change (map (load_fd names) (t_fields t)) with (load_fd names <$> t_fields t) in Hh. rewrite list_lookup_fmap in Hh. apply fmap_Some in Hh as (f' & Hf' & ->). cbn in E.
        injection E as E. assert (E' : names (f_name f') = names (f_name f)) by (apply name_inj; unfold name_code; congruence).
        destruct (HP k t Et) as (_ & Nd & _). rewrite NoDup_alt in Nd. change (map (fun f => names (f_name f)) (t_fields t)) with ((fun f => names (f_name f)) <$> t_fields t) in Nd.
        assert (j = y); [|lia]. apply (Nd j y (names (f_name f))); rewrite list_lookup_fmap; [by rewrite Hf'; cbn; rewrite E'|by rewrite Hf].
    - (* an array *)
      pose proof Fd as ((_ & _ & _ & _ & _ & _ & Pa & _) & _ & Ar & _). destruct (Pa Ty) as (_ & _ & Nz). destruct (Ar Ty) as (D1 & D0 & _).
      assert (Load.s_kind (load_stype g) = Load.Array) as -> by (unfold load_stype; by rewrite Ty).
      assert (Z.of_nat (length ks) <= f_dim0 g) as Hlen.
      { rewrite <- (Forall2_length _ _ _ FF), seqZ_length. unfold in_use in U. destruct (f_dim0 g =? 0); [lia|]. destruct (_ || _); [lia|]. destruct (f_szf g); lia. }
      exists (f_dim0 g). split; [unfold load_stype; cbn; destruct (f_dims g); [lia|done]|]. split; [by rewrite map_length|]. split; [exact Nz|].
      intros y m Hy. destruct (Kids y m Hy) as (c & Hc & -> & Hin). destruct (Forall2_lookup_r _ _ _ _ _ FF Hc) as (j & Hj & _ & Eg & _ & Eo).
      apply lookup_seqZ in Hj as [-> Lj].
      assert (f_dim0 g <> 0) as Nd by (apply lookup_lt_Some in Hc; lia).
      split; [by apply suits_elem|]. rewrite ty_idx, off_idx, Eg, Eo by done. rewrite <- (part_type W names g Fd Ty Nd). split; [done|]. unfold load_stype. cbn. lia.
    - (* a pointer that is followed *)
      assert (Load.s_kind (load_stype g) = Load.Pointer) as -> by (unfold load_stype; by rewrite Ty). right.
      destruct S as (Ex & Enn & _ & Et & _). destruct S' as (Exd & End & _). assert (xd = x) as -> by congruence. assert (nd = n) as -> by congruence.
      destruct Rd as [_ Rd]. rewrite Nr in Rd. cbn [print_info j_null j_kind] in Rd. rewrite Nn in Rd.
      assert (print_kind W cstr shown x = KList) as Ek by (unfold print_kind; rewrite Et, Ty; done). rewrite Ek in Rd. destruct Rd as [Rv Rn].
      split; [by rewrite En|]. split; [split; [done|]; rewrite Ev, Rv; done|].
      rewrite <- (content_type W names g Fd Ty). split.
      { cbn. destruct Fd as ((_ & _ & _ & _ & _ & _ & _ & Ne & _) & _). destruct (Ne Ty A2) as (u & -> & Nu). done. }
      intros y m Hy. destruct (Kids y m Hy) as (c & Hc & -> & Hin). split; [by apply suits_elem|]. destruct y as [|y]; [|done]. cbn in Hc. injection Hc as <-.
      rewrite ty_idx, off_idx, E2, E4 by done. done.
    - (* no children *)
      destruct Fd as ((F1 & F2 & _) & _). 
      destruct (Z.eq_dec (f_type g) T_POINTER) as [Ty|N1]; [unfold load_stype; rewrite Ty; by left|].
      destruct (Z.eq_dec (f_type g) T_VOID) as [Ty|N2]; [unfold load_stype; rewrite Ty; done|].
      destruct (Z.eq_dec (f_type g) T_STRING) as [Ty|N3].
      { unfold load_stype; rewrite Ty. split; [done|]. destruct Rd as [_ Rd]. 
        destruct S as (Ex & Enn & Ea & Et & _). rewrite En, Ev. destruct (is_ref n); [destruct Rd as (m & _ & _ & ->); right; by right|].
        cbn [print_info j_null j_kind] in Rd. destruct (i_null x); [left; by destruct Rd|]. right. right.
        unfold print_kind in Rd. rewrite Et, Ty in Rd. cbn in Rd. destruct (w_ptr W (i_data x)); [|done]. destruct Rd as [_ [-> | ->]]; done. }
      assert (f_type g <> T_STRUCT /\ f_type g <> T_ARRAY) as [N4 N5].
      { unfold bare in B. apply Z.eqb_neq in N1, N3. rewrite N1, N3 in B. destruct (Z.eqb_spec (f_type g) T_FUNC) as [Ef|]; [rewrite Ef; done|].
        destruct (Z.eqb_spec (f_type g) T_FUNC_TYPE) as [Ef|]; [rewrite Ef; done|]. cbn in B. tauto. }
      destruct (Z.eq_dec (f_type g) T_CHAR_ARRAY) as [Ty|N6].
      { destruct (leaf_seen (D i e g a o []) Hd eq_refl (or_introl Ty)) as (h & p' & _ & _ & Ev' & _ & Hl). cbn [d_g d_a] in Hl.
        unfold load_stype; rewrite Ty. split; [done|]. destruct Hl as [Hl|([Hl|Hl] & _)]; [|by rewrite Ty in Hl|by rewrite Ty in Hl].
        rewrite Ty in Hl. destruct HS as (_ & _ & S3). destruct (S3 a h) as (s & Es). rewrite Es in Hl. destruct Hl as [_ Hl]. exists s. rewrite Ev'. destruct Hl as [-> | ->]; [by right|by left]. }
      assert (single (f_type g)) as Sg by done.
      destruct (leaf_seen (D i e g a o []) Hd eq_refl (or_intror Sg)) as (h & p' & Dc & _ & Ev' & En' & Hl). cbn [d_g d_a] in *.
      assert (leaf (lnode (D i e g a o [])) (load_stype g) = (true, true)) as Hlf.
      { apply (Hleaf a h g _ (p_val p') (p_null p')); try done. destruct Hl as [Hl|(Hf & _ & Hn & Hv)]; [by left|right]. done. }
      destruct (Z.eq_dec (f_type g) T_ENUM) as [Ty|N7].
      { assert (Load.s_kind (load_stype g) = Load.Enum) as -> by (unfold load_stype; by rewrite Ty). done. }
      assert (exists z, Load.s_kind (load_stype g) = Load.Scalar z) as (z & ->); [|done].
      unfold load_stype. cbn. destruct (f_type g =? T_BITFIELD); [by eexists|]. unfold load_kind.
      apply Z.eqb_neq in N1, N2, N3, N4, N5, N6, N7, F1. rewrite N1, N2, N3, N4, N5, N6, N7, F1.
      unfold union_type in F2. apply orb_false_elim in F2 as [F2 F3]. rewrite F3. unfold union_type. rewrite F2, F3. by eexists.
  Qed.

  Lemma fits_tree f : load_stype (d_g d0) = load_stype f -> d_o d0 = 0 -> LoadFits.tree_fits env leaf (lnode d0) ty off (load_fd names f).
  Proof.
    intros Ef Eo. pose proof (flat_self d0) as Hd. split; [by rewrite ty_idx, Ef|]. split; [by rewrite off_idx|]. split; [|exact fits_all].
    destruct (seen d0 Hd) as (x & n & p & (_ & En & _) & _ & Rd & _ & _ & _ & _ & Efd). destruct Rd as [Rn _].
    destruct (tree_at_root _ _ _ _ HT) as (_ & n' & En' & Pn & _). assert (n' = n) as -> by (destruct d0; cbn in *; congruence).
    unfold in_struct in Rn. rewrite Pn in Rn. rewrite Rn in Efd. unfold LoadFits.suits. by rewrite Efd.
  Qed.

  (** References. *)
  Lemma ref_node d x n r xr : d ∈ flat d0 -> stands st (d_i d) (d_g d) (d_a d) x n -> is_ref n = true -> first_child n = r -> target st r xr ->
    exists dr, dr ∈ flat d0 /\ d_i dr = r /\ s_info st !! d_i dr = Some xr /\ Load.n_null (lnode d) = false /\
      Load.n_val (lnode d) = Load.VInt (if i_cref x then - Z.of_nat (pub r) else Z.of_nat (pub r)).
  Proof.
    intros Hd S Rn Er Tr. destruct (target_in st d0 HT HQ r xr Tr) as [Hr Exr]. destruct (of_node r Hr) as (dr & Hdr & Edr). exists dr.
    split; [done|]. split; [done|]. split; [by rewrite Edr|]. destruct (seen d Hd) as (x' & n' & p & S' & Ep & Rd & En & Ev & _).
    destruct S as (Ex & Enn & _), S' as (Ex' & Enn' & _). assert (x' = x) as -> by congruence. assert (n' = n) as -> by congruence.
    destruct Rd as [_ Rd]. rewrite Rn in Rd. destruct Rd as (m & Em & Nl & Vl). rewrite En, Ev, Nl, Vl. split; [done|]. cbn. unfold public. rewrite <- Er, Em. done.
  Qed.

  Lemma refs_good : LoadFits.refs_fit (Load.subtree (lnode d0)) (lnode d0) ty.
  Proof.
    rewrite subtree_lnode. split.
    - intros m Hm. apply elem_of_list_In, in_map_iff in Hm as (d & <- & Hd). apply elem_of_list_In in Hd. rewrite (id_lnode d Hd).
      destruct (index_of d Hd) as (k & Hk & ->). apply lookup_lt_Some in Hk. lia.
    - intros nd nd' Hn Hn' Hk Ha. rewrite subtree_lnode in Hn, Hn'.
      apply elem_of_list_In, in_map_iff in Hn as (d & <- & Hd), Hn' as (d' & <- & Hd'). apply elem_of_list_In in Hd, Hd'.
      rewrite ty_idx in * by done. rewrite (id_lnode d' Hd') in Ha. destruct Ha as [Ha|(z & Ha & Lz & Ez)].
      { destruct (seen d Hd) as (_ & _ & _ & _ & _ & _ & _ & _ & Er & _). congruence. }
      destruct (seen d Hd) as (x & n & p & S & Ep & Rd & En & Ev & _). destruct Rd as [_ Rd]. rewrite Ev in Ha.
      assert (p_val p = LInt z) as Epv by (destruct (p_val p); cbn in Ha; congruence).
      assert (Ty : f_type (d_g d) = T_POINTER \/ f_type (d_g d) = T_STRING).
      { unfold load_stype in Hk. cbn in Hk. destruct (f_type (d_g d) =? T_BITFIELD); [by destruct Hk|]. unfold load_kind in Hk.
        destruct (Z.eqb_spec (f_type (d_g d)) T_POINTER); [by left|]. destruct (Z.eqb_spec (f_type (d_g d)) T_STRING); [by right|].
        exfalso. repeat match type of Hk with context [if ?b then _ else _] => destruct b end; by destruct Hk. }
      destruct (local_at d Hd) as [Ld Fd]. pose proof S as (Ex & Enn & Ea & Et & _). destruct (is_ref n) eqn:Rn.
      2:{ exfalso. destruct (i_null x) eqn:Nl; cbn [print_info j_null j_kind] in Rd; rewrite Nl in Rd; [destruct Rd as [_ Rd]; assert (z = 0) by congruence; lia|].
          unfold print_kind in Rd. rewrite Et in Rd. destruct Ty as [Ty|Ty]; rewrite Ty in Rd; cbn in Rd; [destruct Rd; congruence|].
          destruct (w_ptr W (i_data x)); [|done]. destruct Rd as [_ [?|?]]; congruence. }
      assert (exists xr, target st (first_child n) xr /\ (i_cref x = true -> i_type xr = T_STRING)) as (xr & Tr & Hc).
      { destruct Ld as [i e g a o ks xd nd k t S' Ty' Nr|i e g a o ks xd nd cnt S' Ty' Nr|i e g a o xd nd q c' S' Ty' Nr|i e g a o xd nd S' B]; cbn [d_i d_g d_ks d_a] in *;
        destruct S' as (Exd & End & _); assert (xd = x) as -> by congruence; assert (nd = n) as -> by congruence; [congruence|congruence|congruence|].
        unfold bare in B. rewrite Rn in B. destruct Ty as [Ty|Ty]; rewrite Ty in B; cbn in B.
        - destruct B as (q & u & _ & _ & B). destruct ((q =? 0) || (u =? 0)); [by destruct B|]. destruct ((f_aux g =? T_VOID) || (f_aux g =? T_NONE)).
          + destruct B as [_ [(xr & Tr & Cr & _)|(xr & Tr & Cr)]]; exists xr; (split; [done|]); intros Ec; rewrite Ec in Cr; [done|]. by destruct Cr.
          + destruct B as (_ & _ & Cr & _ & xr & Tr & _). exists xr. split; [done|]. congruence.
        - destruct B as (q & _ & _ & _ & B). destruct (B eq_refl) as (xr & Tr & Cr). exists xr. split; [done|]. intros Ec. rewrite Ec in Cr. by destruct Cr. }
      destruct (ref_node d x n _ xr Hd S Rn eq_refl Tr) as (dr & Hdr & Edr & Exr & _ & Vr). rewrite Ev, Epv in Vr. cbn in Vr. injection Vr as Vr.
      destruct (i_cref x) eqn:Ec; [|lia]. rewrite <- Edr in Vr.
      assert (dr = d') as ->.
      { apply (pub_inj dr d' Hdr Hd'). destruct (index_of dr Hdr) as (k & Hk1 & E1). apply lookup_lt_Some in Hk1.
        rewrite Vr, Z.opp_involutive, Z.mod_small in Ez by lia. lia. }
      destruct (local_at d' Hd') as [Ld' _]. destruct (local_stands W st d' Ld') as (x' & n' & Ex' & _ & _ & Et' & _). assert (x' = xr) as -> by congruence.
      rewrite (Hc eq_refl) in Et'. unfold load_stype. rewrite <- Et'. cbn. by right.
  Qed.
End Load.
