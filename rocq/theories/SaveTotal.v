(** mr_save_inner (src/mr_save.c:1012-1065) comes to an end and saves the data. *)
From stdpp Require Import sets.
From Verif Require Import Base Ptrs ChildrenProof Save SaveForest SaveSpec SaveInv SaveSteps SaveRun SaveTop SaveTotalSpec.
Local Open Scope Z_scope.

(** ** Loops over the nodes above *)
Section Climb.
  Context (st : sst) (Ln : length (s_info st) = length (lns st)) (Pl : forall i, (parf (lns st) i < length (lns st))%nat).

  Lemma both i : (i < length (lns st))%nat -> exists n x, lns st !! i = Some n /\ s_info st !! i = Some x /\ parf (lns st) i = parent n.
  Proof.
    intros L. destruct (lookup_lt_is_Some_2 (lns st) i L) as [n En]. rewrite <- Ln in L. destruct (lookup_lt_is_Some_2 (s_info st) i L) as [x Ex].
    exists n, x. split; [done|]. split; [done|]. by apply parf_lu.
  Qed.

  Lemma climbp_def i k : lev (parf (lns st)) i k -> (i < length (lns st))%nat -> forall fuel, (S k < fuel)%nat -> exists r, climb_persistent fuel st i = Some r.
  Proof.
    induction 1 as [i E|i k N L IH]; intros Li fuel Hf; (destruct fuel as [|fuel]; [lia|]); cbn [climb_persistent];
      destruct (both i Li) as (n & x & En & Ex & Pn); rewrite (rd_lu _ _ _ En), (rd_lu _ _ _ Ex); cbn [mbind option_bind];
      (destruct (Nat.eqb i 0); [eauto|]); rewrite <- Pn.
    - assert (exists r, climb_persistent fuel st (parf (lns st) i) = Some r) as Q by (rewrite E; destruct fuel; [lia|]; eauto).
      destruct (i_fdp x) as [f|]; [destruct (f_np f); [done|eauto]|done].
    - assert (exists r, climb_persistent fuel st (parf (lns st) i) = Some r) as Q by (apply IH; [apply Pl|lia]).
      destruct (i_fdp x) as [f|]; [destruct (f_np f); [done|eauto]|done].
  Qed.
  Lemma climbs_def i k : lev (parf (lns st)) i k -> (i < length (lns st))%nat -> forall fuel, (S k < fuel)%nat ->
    exists p, climb_struct fuel st i = Some p /\ (p <> 0%nat -> exists x, s_info st !! p = Some x /\ i_type x = T_STRUCT).
  Proof.
    induction 1 as [i E|i k N L IH]; intros Li fuel Hf; (destruct fuel as [|fuel]; [lia|]); cbn [climb_struct];
      destruct (both i Li) as (n & x & En & Ex & Pn); rewrite (rd_lu _ _ _ En), (rd_lu _ _ _ Ex); cbn [mbind option_bind];
      (destruct (Nat.eqb i 0); [exists 0%nat; done|]); rewrite <- Pn; (destruct (Z.eqb_spec (i_type x) T_STRUCT); [exists i; eauto|]).
    - rewrite E; destruct fuel; [lia|]; exists 0%nat; done.
    - apply IH; [apply Pl|lia].
  Qed.
  Lemma refpar_def r i k : lev (parf (lns st)) i k -> (i < length (lns st))%nat -> forall fuel, (S k < fuel)%nat -> exists b, ref_is_parent fuel (lns st) i r = Some b.
  Proof.
    induction 1 as [i E|i k N L IH]; intros Li fuel Hf; (destruct fuel as [|fuel]; [lia|]); cbn [ref_is_parent];
      destruct (both i Li) as (n & x & En & Ex & Pn); rewrite (rd_lu _ _ _ En); cbn [mbind option_bind];
      (destruct (Nat.eqb i 0 || Nat.eqb i r); [eauto|]); rewrite <- Pn.
    - rewrite E; destruct fuel; [lia|]; cbn; eauto.
    - apply IH; [apply Pl|lia].
  Qed.
End Climb.

Section Tot.
  Context (W : world) (HW : wf_world W) (root : fd) (a0 : Z) (HT : tame W root a0).
  (** A measure of the descriptors that gets smaller towards the inside. *)
  Context (m : fd -> nat).
  Notation vis := (visits W root a0).
  Context (Hfield : forall e g a k t f, vis e g a -> f_type g = T_STRUCT -> f_tdp g = Some k -> w_tds W !! k = Some t -> f ∈ t_fields t -> (m f < m g)%nat)
    (Helem : forall e g a, vis e g a -> f_type g = T_ARRAY -> f_dim0 g <> 0 -> (m (part g) < m g)%nat)
    (Hmember : forall e g a h, vis e g a -> union_type (f_type g) = true -> chosen W a g = Some h -> (m h < m g)%nat)
    (Hstring : forall e g a, vis e g a -> f_type g = T_STRING -> (0 < m g)%nat)
    (Hknown : forall e g a k, vis e g a -> f_tdp g = Some k -> is_Some (w_tds W !! k))
    (Hstruct : forall e g a, vis e g a -> f_type g = T_STRUCT -> f_tdp g <> None)
    (Hcell : forall e g a, vis e g a -> f_type g = T_ARRAY -> f_dim0 g <> 0 -> f_size (part g) <> 0)
    (Href : forall e g a r, vis e g a -> f_szf g = Some r -> size_ref W root r).

  Record Good (st : sst) : Prop := {
    gd_chain : forall i x, i <> 0%nat -> s_info st !! i = Some x -> (i_chain x < i)%nat;
    gd_head : forall k, (s_heads st k < length (s_info st))%nat;
    gd_struct : forall i x h, i <> 0%nat -> s_info st !! i = Some x -> i_type x = T_STRUCT -> i_fdp x = Some h ->
      exists e g, vis e g (i_data x) /\ f_type g = T_STRUCT /\ f_tdp g = f_tdp h }.

  Lemma good_eq st st' : Good st -> s_info st' = s_info st -> s_heads st' = s_heads st -> Good st'.
  Proof. intros [G1 G2 G3] E1 E2. constructor; rewrite E1; try done. by rewrite E2. Qed.
  Lemma good_upd st i x x' p hs : Good st -> s_info st !! i = Some x -> i_data x' = i_data x -> i_type x' = i_type x -> i_chain x' = i_chain x ->
    (i_type x = T_STRUCT -> forall h, i_fdp x' = Some h -> exists h', i_fdp x = Some h' /\ f_tdp h = f_tdp h') -> hs = s_heads st ->
    Good (SSt p (<[i := x']> (s_info st)) hs).
  Proof.
    intros [G1 G2 G3] Ex Ed Et Ec Ef ->. pose proof (lookup_lt_Some _ _ _ Ex) as Li. constructor; cbn [s_info s_heads].
    - intros j y Jz Ey. destruct (Nat.eq_dec j i) as [->|Nj].
      + rewrite list_lookup_insert in Ey by done. injection Ey as <-. rewrite Ec. by apply G1.
      + rewrite list_lookup_insert_ne in Ey by done. by apply G1.
    - intros k. rewrite insert_length. apply G2.
    - intros j y h Jz Ey Ty Hf. destruct (Nat.eq_dec j i) as [->|Nj].
      + rewrite list_lookup_insert in Ey by done. injection Ey as <-. rewrite Et in Ty. rewrite Ed. destruct (Ef Ty h Hf) as (h' & Eh' & ->). by eapply G3.
      + rewrite list_lookup_insert_ne in Ey by done. by eapply G3.
  Qed.

  Definition known (f : fd) : Prop := forall k, f_tdp f = Some k -> is_Some (w_tds W !! k).

  Lemma persist_def st K D O st' f par : Inv W st K D O -> s_info st' = s_info st -> (forall i, parf (lns st') i = parf (lns st) i) ->
    length (lns st') = length (lns st) -> (par < length (s_info st))%nat -> known f -> exists h, persistent_fd W st' (Some f) par = Some h.
  Proof.
    intros I Ei Pf Ll Lp Kn. unfold persistent_fd. cbn [mbind option_bind]. destruct (f_np f); [|eauto].
    pose proof (v_len _ _ _ _ _ I) as Ln. pose proof (v_for _ _ _ _ _ I) as R.
    destruct (fo_depth _ _ R par) as (k & Lk & Bk); [by rewrite <- Ln|].
    destruct (climbp_def st') with (i := par) (k := k) (fuel := S (length (lns st'))) as [r Hr].
    - by rewrite Ei, Ll.
    - intros i. rewrite Pf, Ll. apply (parf_lt _ _ R).
    - eapply lev_agree; [exact Lk|]. intros; apply Pf.
    - by rewrite Ll, <- Ln.
    - lia.
    - rewrite Hr. cbn [mbind option_bind]. destruct r as [g|]; [eauto|]. unfold ptr_fd. destruct (f_tdp f) as [j|] eqn:Ej; [|eauto].
      destruct (Kn j Ej) as [t Et]. rewrite (rd_lu _ _ _ Et). cbn. eauto.
  Qed.

  (** ** Nodes found again *)
  Lemma matched_ps_def rec st K D O par data f count : Pre W st K D O par data f count -> Good st ->
    forall px, s_info st !! par = Some px -> ptr_or_str (i_type px) = true ->
    forall fuel h, (h < length (s_info st))%nat -> (h < fuel)%nat ->
    exists b n st', resolve_matched W rec fuel st h (new_info data f count) par = Some (b, n, st') /\ s_info st' = s_info st /\ s_heads st' = s_heads st.
  Proof.
    intros (I & P & (npar & Ep & Rp) & px & Epx & Oa & Po & Hit & Fo & Np & Cn & Sz & Ct) G px' Epx' Ps. rewrite Epx in Epx'. injection Epx' as <-.
    destruct (Ct Ps) as (Kp & Wp & Dz & Tf & C1 & Cp). subst count. clear Ct.
    assert (first_child npar = 0%nat) as Fz.
    { pose proof (fo_kids _ _ (v_for _ _ _ _ _ I) _ _ Ep) as L. rewrite Rp, Kp in L. done. }
    induction fuel as [|fuel IH]; intros h Lh Hf; [lia|]. cbn [resolve_matched].
    destruct (Nat.eqb_spec h 0) as [->|Hz]; [eauto 6|].
    destruct (lookup_lt_is_Some_2 (s_info st) h Lh) as [rx Erx]. destruct (lookup_lt_is_Some_2 (lns st) h) as [rn Ern]; [by rewrite <- (v_len _ _ _ _ _ I)|].
    rewrite (rd_lu _ _ _ Ern), (rd_lu _ _ _ Erx). cbn [mbind option_bind].
    destruct (same_typed rx (new_info data f 1)) eqn:Sm; cbn [negb].
    2:{ pose proof (gd_chain _ G h rx Hz Erx). apply IH; lia. }
    pose proof Sm as Sm0. apply (same_typed_alike W _ _ _ _ _ _ _ _ _ I Hz Erx) in Sm as (Sd & St & Sm & Sc).
    rewrite (rd_lu _ _ _ Epx). cbn [mbind option_bind].
    destruct (ref_inv W st K D O par px h rx) as (st1 & E1 & I1 & X1 & Ei1 & C1 & N1 & _); try done.
    { unfold target_ok. rewrite Sd, St. done. }
    { intros Tp. split; [done|]. intros Hc. rewrite Sc by done. destruct (Cp Tp) as (-> & _). done. }
    assert (s_heads st1 = s_heads st) as Eh1.
    { unfold make_ref in E1. apply bind_Some in E1 as (s2 & Q1 & Q2). unfold upd_link in Q1, Q2. apply bind_Some in Q1 as (? & _ & Q1). injection Q1 as <-.
      apply bind_Some in Q2 as (? & _ & Q2). by injection Q2 as <-. }
    destruct (Z.eqb_spec (i_type px) T_STRING) as [Ts|Ts].
    { rewrite E1. cbn. eauto 6. }
    assert (i_type px = T_POINTER) as Tp by (clear -Ps Ts; unfold ptr_or_str in Ps; lia). rewrite Tp, Z.eqb_refl.
    destruct (Cp Tp) as (Ctd & Csz & Cu & Cv & Cno).
    unfold resolve_pointer. cbn [i_fdp new_info mbind option_bind i_size].
    destruct (Z.eqb_spec (f_size f) 0); [done|]. rewrite (rd_lu _ _ _ Ern), (rd_lu _ _ _ Erx). cbn [mbind option_bind].
    destruct (lookup_lt_is_Some_2 (s_info st) (parent rn)) as [qx Eqx].
    { rewrite (v_len _ _ _ _ _ I), <- (parf_lu _ _ _ Ern). apply (parf_lt _ _ (v_for _ _ _ _ _ I)). }
    rewrite (rd_lu _ _ _ Eqx). cbn [mbind option_bind]. rewrite (rd_lu _ _ _ Ep). cbn [mbind option_bind]. rewrite Fz. cbn [Nat.eqb].
    assert (w32 (f_size f * 1) = f_size f) as Ws. { rewrite Z.mul_1_r in *. apply w32_small. destruct Fo as [Fs _]. exact Fs. }
    rewrite Ws.
    assert (f_size f <= i_size rx) as Le.
    { destruct (v_id _ _ _ _ _ I h rx Hz Erx) as (B1 & _ & _ & _ & _ & B6).
      assert (f_type f <> T_CHAR_ARRAY /\ 0 <= f_type f <= T_NAMED_ANON_UNION) as [Nc Rg].
      { destruct (v_id _ _ _ _ _ I par px P Epx) as (D1 & _ & _ & D4 & _). destruct D4 as [_ [_ D4]]. rewrite <- D1, Tp in D4. cbn in D4.
          destruct D4 as (_ & _ & D4). destruct (D4 eq_refl) as (_ & _ & (D5 & _ & D6) & _). rewrite Tf. done. }
      assert (sized (i_type rx) = true) as Hs.
      { rewrite St in *. clear -Sm Nc Cv Cno. unfold sized, matchable in *. rewrite negb_true_iff in *. rewrite !orb_false_iff in *. lia. }
      destruct (B6 Hs) as (u & Hu & Lu). assert (unit_size W (i_type rx) (f_tdp (D h)) = Some (f_size f)) as E; [|rewrite Hu in E; injection E as ->; done].
      rewrite <- Cu, St. unfold unit_size. destruct (type_size (f_type f) =? 0) eqn:Tz; [|done].
      rewrite Sc; [done|]. rewrite St in *. by apply no_size_compound. }
    apply Z.leb_le in Le. rewrite Le. rewrite E1. cbn [mbind option_bind]. eauto 6.
  Qed.

  Lemma move_def st K D O par npar px q r xr xq f data count : Inv W st K D O -> par <> 0%nat -> lns st !! par = Some npar -> is_ref npar = false ->
    s_info st !! par = Some px -> ptr_or_str (i_type px) = false ->
    hitc (lns st) K (cache (s_ptrs st)) par -> known f -> fd_ok W f -> np_ok W D par f ->
    r <> 0%nat -> s_info st !! r = Some xr -> parf (lns st) r = q -> q <> 0%nat -> s_info st !! q = Some xq -> ptr_or_str (i_type xq) = true ->
    same_typed xr (new_info data f count) = true -> ~ anc (parf (lns st)) par r ->
    exists n p x', move_nodes W st q (new_info data f count) par = Some (n, SSt p (<[r := x']> (s_info st)) (s_heads st)) /\
      i_data x' = i_data xr /\ i_type x' = i_type xr /\ i_chain x' = i_chain xr /\ exists g, i_fdp x' = Some g /\ f_tdp g = f_tdp f.
  Proof.
    intros I P Ep Rp Epx Psp Hit Kn Fo Np R0 Er Pr Q0 Eq Psq Sm Nan.
    pose proof (v_len _ _ _ _ _ I) as Ln. pose proof (v_for _ _ _ _ _ I) as R.
    apply (same_typed_alike W _ _ _ _ _ _ _ _ _ I R0 Er) in Sm as (Sd & St & Sm & Sc).
    pose proof (lookup_lt_Some _ _ _ Ep) as Lp. pose proof (lookup_lt_Some _ _ _ Er) as Lr. rewrite Ln in Lr.
    assert (r ∈ K q) as Hrq by (apply (fo_in _ _ R); done).
    assert (K q = [r]) as Kq.
    { destruct (v_one _ _ _ _ _ I q xq Q0 Eq Psq) as [E|(c & xc & E & _)]; rewrite E in Hrq; [by apply elem_of_nil in Hrq|].
      apply elem_of_list_singleton in Hrq as ->. done. }
    assert (q <> par) as Nqp by (intros ->; congruence).
    assert (q <> r) as Nqr by (intros E; apply (kid_not_anc _ _ R _ _ Hrq); rewrite E; constructor).
    destruct (lookup_lt_is_Some_2 (lns st) q) as [nq Enq]; [rewrite <- Ln; by eapply lookup_lt_Some|].
    destruct (lookup_lt_is_Some_2 (lns st) r) as [nr Enr]; [done|].
    destruct (move_ok (lns st) K (cache (s_ptrs st)) par npar q r nq nr) as (ns' & Ea & L' & R' & Fr); try done.
    pose proof (fo_kids _ _ R _ _ Enq) as Lk. destruct (is_ref nq) eqn:Rq; [congruence|]. rewrite Kq in Lk. destruct Lk as (Fq & _ & nr0 & Er0 & Nx).
    rewrite Enr in Er0. injection Er0 as <-. cbn in Nx.
    unfold move_nodes. rewrite (rd_lu _ _ _ Enq). cbn [mbind option_bind]. rewrite (upd_link_eq _ _ _ _ Enq). cbn [mbind option_bind].
    rewrite Fq. set (ns1 := <[q := mark_ref nq]> (lns st)) in *.
    assert (ns1 !! r = Some nr) as En1 by (unfold ns1; by rewrite list_lookup_insert_ne).
    rewrite (upd_link_eq _ _ nr) by done. cbn [mbind option_bind]. cbn [cache s_ptrs lns ra s_info s_heads].
    set (st2 := SSt (Ptrs (<[r := mark_referenced nr]> ns1) (cache (s_ptrs st))) (s_info st) (s_heads st)) in *.
    cbn [move_loop]. destruct (Nat.eqb_spec r 0) as [|_]; [done|].
    assert (lns st2 !! r = Some (mark_referenced nr)) as E2 by (cbn; apply list_lookup_insert; unfold ns1; by rewrite insert_length).
    rewrite (rd_lu _ _ _ E2). cbn [mbind option_bind].
    assert (forall i, parf (lns st2) i = parf (lns st) i) as P2.
    { intros i. unfold parf. cbn. destruct (Nat.eq_dec i r) as [->|Nir].
      - rewrite list_lookup_insert by (unfold ns1; by rewrite insert_length). by rewrite Enr.
      - rewrite list_lookup_insert_ne by done. unfold ns1. destruct (Nat.eq_dec i q) as [->|Niq].
        + rewrite list_lookup_insert by (by eapply lookup_lt_Some). by rewrite Enq.
        + by rewrite list_lookup_insert_ne. }
    destruct (persist_def st K D O st2 f par I eq_refl P2) as [h Hh]; [cbn; unfold ns1; by rewrite !insert_length|by rewrite Ln|done|].
    cbn [i_fdp new_info]. rewrite Hh. cbn [mbind option_bind].
    destruct (persistent_ok W HW st K D O st2 f par h I eq_refl P2) as (g & -> & Ng & Tg & Bg & Eg); [by rewrite Ln|done|apply Fo|done|].
    rewrite (upd_info_eq st2 r xr) by done. cbn [mbind option_bind]. cbn [s_ptrs st2].
    change (Ptrs (<[r:=mark_referenced nr]> ns1) (cache (s_ptrs st))) with (Ptrs (<[r := mark_refd' nr]> (<[q := mark_ref' nq]> (lns st))) (cache (s_ptrs st))).
    rewrite Ea. cbn [mbind option_bind]. cbn [next mark_referenced]. rewrite Nx.
    rewrite insert_length. unfold ns1. rewrite insert_length. destruct (length (lns st)) as [|k] eqn:Lz; [lia|]. cbn [move_loop]. cbn [Nat.eqb]. cbn [s_ptrs s_info s_heads].
    eexists _, _, _. split; [reflexivity|]. cbn. split; [done|]. split; [done|]. split; [done|]. eauto.
  Qed.

  Lemma matched_member_def rec st K D O par data f count : Pre W st K D O par data f count -> Good st -> known f ->
    forall px, s_info st !! par = Some px -> ptr_or_str (i_type px) = false ->
    forall fuel h, (h < length (s_info st))%nat -> (h < fuel)%nat ->
    exists b n st', resolve_matched W rec fuel st h (new_info data f count) par = Some (b, n, st') /\ Good st'.
  Proof.
    intros (I & P & (npar & Ep & Rp) & px & Epx & Oa & Po & Hit & Fo & Np & Cn & Sz & Ct) G Kn px' Epx' Ps. rewrite Epx in Epx'. injection Epx' as <-.
    clear Ct. assert (par ∈ O) as Ho. { destruct Po as [?|T]; [done|]. by rewrite T in Ps. }
    pose proof (v_len _ _ _ _ _ I) as Ln. pose proof (v_for _ _ _ _ _ I) as R.
    induction fuel as [|fuel IH]; intros h Lh Hf; [lia|]. cbn [resolve_matched].
    destruct (Nat.eqb_spec h 0) as [Hz|Hz]; [eauto 6|].
    destruct (lookup_lt_is_Some_2 (s_info st) h Lh) as [rx Erx]. destruct (lookup_lt_is_Some_2 (lns st) h) as [rn Ern]; [by rewrite <- Ln|].
    rewrite (rd_lu _ _ _ Ern), (rd_lu _ _ _ Erx). cbn [mbind option_bind].
    pose proof (gd_chain _ G h rx Hz Erx) as Lc.
    destruct (same_typed rx (new_info data f count)) eqn:Sm; cbn [negb]; [|apply IH; lia].
    rewrite (rd_lu _ _ _ Epx). cbn [mbind option_bind].
    assert ((i_type px =? T_STRING) = false /\ (i_type px =? T_POINTER) = false) as [E1 E2] by (clear -Ps; unfold ptr_or_str in Ps; lia).
    rewrite E1, E2. pose proof (parf_lt _ _ R h) as Lq. rewrite (parf_lu _ _ _ Ern) in Lq.
    assert (exists mv, movable st rn rx h (new_info data f count) par = Some mv /\ (mv = true -> parent rn <> 0%nat /\ ~ anc (parf (lns st)) par h /\
       exists qx, s_info st !! parent rn = Some qx /\ ptr_or_str (i_type qx) = true)) as (mv & -> & Hm).
    { unfold movable. destruct (Nat.eqb_spec (parent rn) 0) as [|Qz]; [eexists; split; [done|]; done|].
      destruct (lookup_lt_is_Some_2 (s_info st) (parent rn)) as [qx Eqx]; [by rewrite Ln|]. rewrite (rd_lu _ _ _ Eqx). cbn [mbind option_bind].
      destruct (lookup_lt_is_Some_2 (lns st) (parent rn) Lq) as [qn Eqn].
      assert (is_first_child (lns st) h = Some (Nat.eqb (first_child qn) h)) as ->.
      { unfold is_first_child. rewrite (rd_lu _ _ _ Ern). cbn [mbind option_bind]. destruct (Nat.eqb_spec (parent rn) 0); [done|]. by rewrite (rd_lu _ _ _ Eqn). }
      cbn [mbind option_bind].
      set (b := if i_type qx =? T_STRING then _ else _). assert (exists b1, b = Some b1 /\ (b1 = true -> ptr_or_str (i_type qx) = true)) as (b1 & -> & Hb).
      { unfold b, ptr_or_str. destruct (i_type qx =? T_STRING); [eexists; split; [done|]; intros _; by rewrite orb_true_r|].
        destruct (i_type qx =? T_POINTER); eexists; (split; [done|]); done. }
      cbn [mbind option_bind]. destruct b1; [|eexists; split; [done|]; done].
      pose proof (lookup_lt_Some _ _ _ Ep) as Lp. destruct (fo_depth _ _ R par Lp) as (k & Lk & Bk).
      destruct (refpar_def st Ln (parf_lt _ _ R) h par k Lk Lp (S (length (lns st)))) as [rb Hrb]; [lia|]. rewrite Hrb. cbn [mbind option_bind].
      eexists. split; [done|]. intros Hn. destruct rb; [done|]. split; [done|]. split; [|eauto].
      apply ref_is_parent_no in Hrb; [done|apply (parf_zero _ _ R)|done]. }
    cbn [mbind option_bind]. destruct mv; [|apply IH; lia]. destruct (Hm eq_refl) as (Qz & Na & qx & Eqx & Pq).
    destruct (move_def st K D O par npar px (parent rn) h rx qx f data count) as (n & p & x' & -> & X1 & X2 & X3 & g & X4 & X5); try done.
    { by rewrite (parf_lu _ _ _ Ern). }
    cbn [mbind option_bind]. eexists _, _, _. split; [reflexivity|]. eapply good_upd; try done.
    intros Tr h1 Eh1. rewrite X4 in Eh1. injection Eh1 as <-. apply (same_typed_alike W _ _ _ _ _ _ _ _ _ I Hz Erx) in Sm as (_ & _ & _ & Sc).
    specialize (Sc ltac:(unfold compound; by rewrite Tr)). rewrite X5, <- Sc. destruct (decide (h ∈ O)) as [Hh|Hh].
    - destruct (v_fdp_o _ _ _ _ _ I h rx Hz Hh Erx) as [-> _]. eauto.
    - destruct (v_fdp_c _ _ _ _ _ I h rx Hz Hh Erx) as (h1 & -> & _ & ? & _). eauto.
  Qed.

  (** ** The handlers *)
  (** The structure the node [p] is, if it is one. *)
  Definition pencl (st : sst) (D : nat -> fd) (p : nat) : option (Z * nat) := encl0 st D p.

  (** What is saved: data looked at, or the characters of a string. *)
  Definition seen (d : nat) (e : option (Z * nat)) (f : fd) (a : Z) : Prop :=
    (vis e f a /\ (m f < d)%nat) \/ (f_type f = T_CHAR_ARRAY /\ known f /\ (0 < d)%nat).

  Definition TotOK (d : nat) (rec : Z -> fd -> Z -> sst -> nat -> option (Z * sst)) : Prop :=
    forall data f count st par K D O, Pre W st K D O par data f count -> Good st -> seen d (pencl st D par) f data ->
      exists st', rec data f count st par = Some (1, st') /\ Good st'.

  Section Handlers.
    Context (d : nat) (rec : Z -> fd -> Z -> sst -> nat -> option (Z * sst)) (HR : RecOK W rec) (HTt : TotOK d rec).
    Context (st0 : sst) (K0 : nat -> list nat) (D0 : nat -> fd) (O : list nat) (par idx : nat) (g : fd) (data : Z).
    Context (I0 : Inv W st0 K0 D0 O) (Hidx : idx = length (s_info st0)) (Hpar : (par < idx)%nat) (Hoa : forall o, o ∈ O -> anc (parf (lns st0)) par o)
      (Hpz : par = 0%nat -> O = []).
    Notation SC := (SC W st0 K0 D0 O par idx g data).

    Lemma rec_tot st K D x a f count : SC st K D x -> at_idx idx st K -> i_type x <> T_POINTER ->
      (exists nd, lns st !! idx = Some nd /\ is_ref nd = false) -> fd_ok W f -> np_ok W D idx f -> 1 <= count -> f_size f * count < 2 ^ 32 ->
      (i_type x = T_STRING -> K idx = [] /\ w_ptr W data = Some a /\ a <> 0 /\ f_type f = T_CHAR_ARRAY /\ count = 1) ->
      Good st -> seen d (pencl st D idx) f a ->
      exists st', rec a f count st idx = Some (1, st') /\ Good st' /\ exists K' D', SC st' K' D' x /\ Ext idx st K D st' K' D' /\
        (i_type x <> T_STRING -> at_idx idx st' K').
    Proof.
      intros C Hat Nt Hnd Fo Np Cn Sz Hs G Sn. destruct (at_hit W HW rec HR st0 K0 D0 O par idx g data I0 Hidx Hpar Hoa Hpz _ _ _ _ C Hat) as [Hit _].
      destruct (HTt a f count st idx K D (idx :: O)) as (st' & Hr & G'); [|done|done|].
      { split; [apply C|]. split; [exact (idx_nz W st0 K0 D0 O par idx I0 Hidx Hpar Hoa Hpz)|]. split; [done|]. exists x. split; [apply C|]. split; [by eapply (sc_anc W st0 K0 D0 O par idx g data)|]. split; [left; left|].
        do 5 (split; [done|]). intros Ps. assert (i_type x = T_STRING) as Ts by (clear -Ps Nt; unfold ptr_or_str in Ps; lia).
        destruct (Hs Ts) as (A1 & A2 & A3 & A4 & A5). rewrite (c_data _ _ _ _ _ _ _ _ _ _ _ _ _ C), Ts. cbn. repeat split; done. }
      exists st'. split; [done|]. split; [done|].
      destruct (rec_step W HW rec HR st0 K0 D0 O par idx g data I0 Hidx Hpar Hoa Hpz st K D x a f count 1 st' C Hat Nt Hnd Fo Np Cn Sz Hs Hr)
        as [?|[_ (K' & D' & C' & X' & Cs)]]; [done|]. exists K', D'. split; [done|]. split; [done|]. intros Ns.
      destruct Cs as [(c & _ & _ & ?)|(? & _)]; done.
    Qed.

    Lemma sc_pencl st K D x : SC st K D x -> i_type x = T_STRUCT -> pencl st D idx = match f_tdp g with Some k => Some (data, k) | None => None end.
    Proof.
      intros C T. unfold pencl, encl0. assert (idx <> 0%nat) as Iz by (exact (idx_nz W st0 K0 D0 O par idx I0 Hidx Hpar Hoa Hpz)). destruct (Nat.eqb_spec idx 0); [done|].
      rewrite (c_info _ _ _ _ _ _ _ _ _ _ _ _ _ C), T, Z.eqb_refl, (c_d _ _ _ _ _ _ _ _ _ _ _ _ _ C), (c_data _ _ _ _ _ _ _ _ _ _ _ _ _ C). done.
    Qed.
    Lemma sc_pencl_no st K D x : SC st K D x -> i_type x <> T_STRUCT -> pencl st D idx = None.
    Proof.
      intros C T. unfold pencl, encl0. destruct (Nat.eqb_spec idx 0); [done|]. rewrite (c_info _ _ _ _ _ _ _ _ _ _ _ _ _ C). by destruct (Z.eqb_spec (i_type x) T_STRUCT).
    Qed.

    Lemma fields_tot x k : i_type x = T_STRUCT -> f_tdp g = Some k -> forall fs st K D, SC st K D x -> at_idx idx st K -> Good st ->
      Forall (fun f => fd_ok W f /\ f_np f = false) fs -> (forall f, f ∈ fs -> vis (Some (data, k)) f (data + f_off f) /\ (m f < d)%nat) ->
      exists st', fields_loop rec fs data idx st = Some (true, st') /\ Good st'.
    Proof.
      intros Tx Tk. assert (ptr_or_str (i_type x) = false) as Ps by (by rewrite Tx).
      induction fs as [|f fs IH]; intros st K D C Ha G Hf Hv; cbn [fields_loop]; [eauto|].
      apply Forall_cons in Hf as [[Fo Nf] Hf].
      destruct (rec_tot st K D x (data + f_off f) f 1) as (st1 & Hr & G1 & K1 & D1 & C1 & _ & Ha1); try done.
      { by rewrite Tx. }
      { by eapply (sc_plain W st0 K0 D0 O par idx g data). }
      { unfold np_ok. by rewrite Nf. }
      { rewrite Z.mul_1_r. apply Fo. }
      { by rewrite Tx. }
      { left. rewrite (sc_pencl _ _ _ _ C Tx), Tk. apply Hv. left. }
      rewrite Hr. cbn [mbind option_bind]. change (1 =? 0) with false. cbv iota. eapply (IH st1 K1 D1); try done.
      - apply Ha1. by rewrite Tx.
      - intros f' Hf'. apply Hv. by right.
    Qed.

    Lemma elems_tot x f : ptr_or_str (i_type x) = false -> i_type x <> T_STRUCT -> fd_ok W f -> f_tdp f = f_tdp g -> forall fuel i count st K D, SC st K D x -> at_idx idx st K -> Good st ->
      0 <= i <= count -> f_size f * count < 2 ^ 32 -> (Z.to_nat (count - i) < fuel)%nat ->
      (forall j, 0 <= j < count -> vis None f (data + j * f_size f) /\ (m f < d)%nat) ->
      exists r st', elems_loop rec fuel (Some data) f i count idx st = Some (Some r, st') /\ Good st'.
    Proof.
      intros Ps Ns Fo Tf. induction fuel as [|fuel IH]; intros i count st K D C Ha G Hi Hs Hfu Hv; [lia|]. cbn [elems_loop].
      destruct (Z.ltb_spec i count) as [Lt|Ge]; [|eauto]. cbn [mbind option_bind].
      assert (i_type x <> T_POINTER /\ i_type x <> T_STRING) as [N1 N2] by (clear -Ps; unfold ptr_or_str in Ps; lia).
      assert (0 <= f_size f) as Sz by apply Fo.
      destruct (rec_tot st K D x (data + i * f_size f) f (count - i)) as (st1 & Hr & G1 & K1 & D1 & C1 & _ & Ha1); try done.
      { by eapply (sc_plain W st0 K0 D0 O par idx g data). }
      { intros _. right. split; [exact (idx_nz W st0 K0 D0 O par idx I0 Hidx Hpar Hoa Hpz)|]. by rewrite (c_d _ _ _ _ _ _ _ _ _ _ _ _ _ C). }
      { clear -Lt. lia. }
      { clear -Hs Hi Lt Sz. nia. }
      { left. rewrite (sc_pencl_no _ _ _ _ C Ns). apply Hv. clear -Hi Lt. lia. }
      rewrite Hr. cbn [mbind option_bind]. change (1 =? 0) with false. cbv iota. eapply (IH (i + 1) count st1 K1 D1); try done.
      - by apply Ha1.
      - clear -Hi Lt. lia.
      - clear -Hfu Lt Hi. lia.
    Qed.

    Lemma size_field_def st K D x : SC st K D x -> Good st -> (forall r, f_szf g = Some r -> size_ref W root r) ->
      exists q, size_field W st idx = Some q /\ (forall a h, q = Some (a, h) -> exists v, w_int W a h = Some (Some v)).
    Proof.
      intros C G Hr. pose proof (c_inv _ _ _ _ _ _ _ _ _ _ _ _ _ C) as I. pose proof (c_info _ _ _ _ _ _ _ _ _ _ _ _ _ C) as Ex.
      assert (idx <> 0%nat) as Iz by (exact (idx_nz W st0 K0 D0 O par idx I0 Hidx Hpar Hoa Hpz)).
      unfold size_field. rewrite (rd_lu _ _ _ Ex). cbn [mbind option_bind].
      destruct (v_fdp_o _ _ _ _ _ I idx x Iz ltac:(left) Ex) as [Ef _]. rewrite Ef, (c_d _ _ _ _ _ _ _ _ _ _ _ _ _ C). cbn [mbind option_bind].
      destruct (f_szf g) as [q|]; [|eexists; split; done]. specialize (Hr q eq_refl).
      pose proof (v_len _ _ _ _ _ I) as Ln. pose proof (v_for _ _ _ _ _ I) as R. pose proof (lookup_lt_Some _ _ _ Ex) as Li.
      destruct (lookup_lt_is_Some_2 (lns st) idx) as [n En]; [by rewrite <- Ln|]. rewrite (rd_lu _ _ _ En). cbn [mbind option_bind].
      pose proof (parf_lt _ _ R idx) as Lp. rewrite (parf_lu _ _ _ En) in Lp. destruct (fo_depth _ _ R (parent n) Lp) as (k & Lk & Bk).
      destruct (climbs_def st Ln (parf_lt _ _ R) (parent n) k Lk Lp (S (length (lns st)))) as (p & Hp & Hs); [lia|]. rewrite Hp. cbn [mbind option_bind].
      destruct (Nat.eqb_spec p 0) as [|Pz]; [eexists; split; done|]. destruct (Hs Pz) as (px & Epx & Tp). rewrite (rd_lu _ _ _ Epx). cbn [mbind option_bind].
      destruct (i_fdp px) as [pf|] eqn:Epf; cbn [mbind option_bind]; [|eexists; split; done].
      destruct (gd_struct _ G p px pf Pz Epx Tp Epf) as (e & h & Vh & Th & Eh). destruct (f_tdp pf) as [j|] eqn:Ej; [|eexists; split; done].
      destruct (Hknown _ _ _ _ Vh Eh) as [t Et]. rewrite (rd_lu _ _ _ Et). cbn [mbind option_bind].
      destruct (find_size_fd t q) as [h'|] eqn:Eq; [|eexists; split; done]. eexists. split; [done|]. intros a h'' E.
      destruct (i_data px + f_off h' =? 0); [done|]. injection E as <- <-. eapply (tm_size _ _ _ HT); try done. 
    Qed.

    Lemma elem_count_def st K D x c e : SC st K D x -> Good st -> (forall r, f_szf g = Some r -> size_ref W root r) -> e <> 0 ->
      exists n, elem_count W st idx c e = Some n.
    Proof.
      intros C G Hr Ez. unfold elem_count. destruct (size_field_def _ _ _ _ C G Hr) as (q & -> & Hq). cbn [mbind option_bind].
      destruct q as [[a h]|]; [|eauto]. destruct (Hq a h eq_refl) as [v Ev]. rewrite Ev. cbn [mbind option_bind].
      destruct (s64 v <=? 0); [eauto|]. destruct (Z.eqb_spec e 0); [done|]. eauto.
    Qed.

    Lemma handle_tot st K D x : SC st K D x -> K idx = [] -> cache (s_ptrs st) = idx ->
      (exists nd, lns st !! idx = Some nd /\ is_ref nd = false) -> i_null x = false -> i_opaque x = false -> Good st ->
      seen (S d) (encl0 st0 D0 par) g data ->
      exists st', handle W rec (f_type g) idx st = Some (1, st') /\ Good st'.
    Proof.
      intros C Ki Ca Nr Nl Op G Sn. pose proof (c_inv _ _ _ _ _ _ _ _ _ _ _ _ _ C) as I. pose proof (c_info _ _ _ _ _ _ _ _ _ _ _ _ _ C) as Ex. pose proof (c_d _ _ _ _ _ _ _ _ _ _ _ _ _ C) as Dg.
      assert (idx <> 0%nat) as Iz by (exact (idx_nz W st0 K0 D0 O par idx I0 Hidx Hpar Hoa Hpz)).
      destruct (v_fdp_o _ _ _ _ _ I idx x Iz ltac:(left) Ex) as [Ef _]. rewrite Dg in Ef.
      destruct (v_id _ _ _ _ _ I idx x Iz Ex) as (Tx & _ & Ax & Fo & Cr & Sx). rewrite Dg in *.
      pose proof (c_data _ _ _ _ _ _ _ _ _ _ _ _ _ C) as Da. rewrite <- Tx. unfold handle.
      destruct Sn as [[Vg Mg]|(Tc & _ & _)].
      2:{ rewrite Tx, Tc. cbn. eauto. }
      assert (at_idx idx st K) as Hat. { unfold at_idx. rewrite Ki, Ca. constructor. }
      assert (forall x', frame_info x x' -> i_fdp x' = i_fdp x -> Good (SSt (s_ptrs st) (<[idx := x']> (s_info st)) (s_heads st))) as Gu.
      { intros x' (F1 & F2 & _ & _ & _ & F3 & _) F4. eapply good_upd; try done. intros _ h Eh. rewrite F4 in Eh. eauto. }
      assert (f_type g = T_POINTER \/ f_type g = T_STRING \/ f_type g = T_FUNC \/ f_type g = T_FUNC_TYPE -> exists p, w_ptr W data = Some p) as Rd.
      { intros Tg. pose proof (tm_read _ _ _ HT _ _ _ Vg Tg). destruct (w_ptr W data); [eauto|done]. }
      destruct ((i_type x =? T_FUNC) || (i_type x =? T_FUNC_TYPE)) eqn:TF.
      { destruct Rd as [p Hp]. { clear -TF Tx. lia. }
        unfold save_func. rewrite (rd_lu _ _ _ Ex). cbn [mbind option_bind]. rewrite Da, Hp. cbn [mbind option_bind].
        destruct (p =? 0); [|eauto]. rewrite (upd_info_eq _ _ _ _ Ex). cbn [mbind option_bind]. eexists. split; [done|]. by apply Gu. }
      destruct (Z.eqb_spec (i_type x) T_STRING) as [Ts|Ns].
      { destruct Rd as [p Hp]. { right. left. congruence. }
        unfold save_string. rewrite (rd_lu _ _ _ Ex). cbn [mbind option_bind]. rewrite Da, Hp. cbn [mbind option_bind].
        destruct (p =? 0) eqn:Pz.
        - rewrite (upd_info_eq _ _ _ _ Ex). cbn [mbind option_bind]. eexists. split; [done|]. by apply Gu.
        - rewrite Ef. cbn [mbind option_bind]. set (f := FD T_CHAR_ARRAY _ _ _ _ _ _ _ _ _ _ _ _).
          destruct (rec_tot st K D x p f 1) as (st1 & Hr & G1 & _); try done.
          + by rewrite Ts.
          + intros _. right. split; [done|]. by rewrite Dg.
          + intros _. rewrite Ki. repeat split; try done. clear -Pz. lia.
          + right. split; [done|]. split; [intros k Ek; by eapply Hknown|]. pose proof (Hstring _ _ _ Vg ltac:(congruence)). clear -H Mg. lia.
          + eauto. }
      destruct (Z.eqb_spec (i_type x) T_ENUM) as [Te|Ne].
      { unfold save_enum. rewrite (rd_lu _ _ _ Ex). cbn [mbind option_bind]. rewrite Ef. cbn [mbind option_bind].
        destruct ((6 <=? i_aux x) && (i_aux x <=? 15)); [eauto|].
        assert (forall v, Good (SSt (s_ptrs st) (<[idx := set_aux x v]> (s_info st)) (s_heads st))) as Gv.
        { intros v. apply Gu; [|done]. unfold frame_info. cbn. rewrite Te. repeat split; done. }
        destruct (f_tdp g) as [k|] eqn:Ek.
        - destruct (Hknown _ _ _ _ Vg Ek) as [t Et]. rewrite (rd_lu _ _ _ Et). cbn [mbind option_bind]. rewrite (upd_info_eq _ _ _ _ Ex). cbn [mbind option_bind]. eexists. split; [done|]. apply Gv.
        - rewrite (upd_info_eq _ _ _ _ Ex). cbn [mbind option_bind]. eexists. split; [done|]. apply Gv. }
      destruct (Z.eqb_spec (i_type x) T_STRUCT) as [Tt|Nt].
      { unfold save_struct. rewrite (rd_lu _ _ _ Ex). cbn [mbind option_bind]. rewrite Ef. cbn [mbind option_bind].
        assert (f_type g = T_STRUCT) as Tg by congruence. destruct (f_tdp g) as [k|] eqn:Ek; [|by apply (Hstruct _ _ _ Vg) in Tg]. cbn [mbind option_bind].
        destruct (Hknown _ _ _ _ Vg Ek) as [t Et]. rewrite (rd_lu _ _ _ Et). cbn [mbind option_bind]. rewrite Da.
        destruct (HW k t Et) as (_ & Hf & _).
        destruct (fields_tot x k Tt Ek (t_fields t) st K D C Hat G Hf) as (st1 & -> & G1).
        - intros f Hin. split; [by eapply vi_field|]. pose proof (Hfield _ _ _ _ _ _ Vg Tg Ek Et Hin). clear -H Mg. lia.
        - cbn. eauto. }
      destruct (Z.eqb_spec (i_type x) T_ARRAY) as [Ta|Na].
      { unfold save_array. rewrite (rd_lu _ _ _ Ex). cbn [mbind option_bind]. rewrite Ef. cbn [mbind option_bind].
        pose proof Fo as [Fs [_ Fa]]. rewrite <- Tx, Ta, Z.eqb_refl in Fa. destruct Fa as (Fd & Fm & Fx & _).
        assert (f_type g = T_ARRAY) as Tg by congruence. destruct (Z.eqb_spec (f_dim0 g) 0) as [Dz|Dz]; [eauto|].
        pose proof (Hcell _ _ _ Vg Tg Dz) as Cz. destruct (Z.eqb_spec (f_size g) 0) as [Sz|Sz].
        { destruct Cz. cbn [part f_size]. rewrite Sz. by apply Z.div_0_l. }
        cbv zeta. rewrite elem_fd_part by congruence. assert (fd_ok W (part g)) as Fp by (apply fd_ok_part; congruence).
        set (cc := if Nat.eqb (f_dims g) 1 && negb (f_np g) then _ else _).
        assert (exists cnt st1 x1, cc = Some (cnt, st1) /\ 0 <= cnt <= f_dim0 g /\ in_use W (encl0 st0 D0 par) g cnt /\ SC st1 K D x1 /\ i_type x1 = T_ARRAY /\ s_ptrs st1 = s_ptrs st /\ Good st1)
          as (cnt & st1 & x1 & -> & Bc & Us & C1 & T1 & Ep1 & G1).
        { unfold cc, in_use. destruct (Z.eqb_spec (f_dim0 g) 0) as [|_]; [done|].
          destruct (Nat.eqb (f_dims g) 1) eqn:D1; cbn [andb negb orb]; [|exists (f_dim0 g), st, x; split; [done|]; split; [clear -Fm; lia|]; split; [done|]; split; [exact C|]; split; [done|]; split; done].
          destruct (f_np g) eqn:Ng; cbn [andb negb orb]; [exists (f_dim0 g), st, x; split; [done|]; split; [clear -Fm; lia|]; split; [done|]; split; [exact C|]; split; [done|]; split; done|].
          destruct (elem_count_def st K D x (f_dim0 g) (f_size (part g)) C G) as [c Hc]; [intros r Er; by eapply Href|done|]. rewrite Hc. cbn [mbind option_bind].
          destruct (elem_count_ok W st0 K0 D0 O par idx g data I0 Hidx Hpar Hoa Hpz st K D x (f_size (part g)) c C Fm Hc) as (B & U).
          rewrite (upd_info_eq _ _ _ _ Ex). cbn [mbind option_bind]. eexists c, _, (set_size x (w32 (c * f_size (part g)))). split; [reflexivity|]. split; [done|]. split.
          - destruct (f_szf g); [|done]. split; [done|]. exact U.
          - split; [|split; [done|split; [done|]]].
            + apply (sc_upd W st0 K0 D0 O par idx g data I0 Hidx Hpar Hoa Hpz _ _ _ x); [done| |done]. unfold frame_info. cbn. by rewrite Ta.
            + apply Gu; [|done]. unfold frame_info. cbn. by rewrite Ta. }
        cbn [mbind option_bind]. rewrite Da.
        assert (f_size (part g) * cnt < 2 ^ 32) as Room.
        { cbn [part f_size]. pose proof (Z.mul_div_le (f_size g) (f_dim0 g)) as H. assert (0 <= f_size g / f_dim0 g) as Q by (apply Z.div_pos; clear -Fs Fm Dz; lia).
          clear -H Q Bc Fs Dz Fm. nia. }
        assert (at_idx idx st1 K) as Ha1. { unfold at_idx, lns in *. by rewrite Ep1. }
        destruct (elems_tot x1 (part g) ltac:(by rewrite T1) ltac:(by rewrite T1) Fp eq_refl (S (Z.to_nat cnt)) 0 cnt st1 K D C1 Ha1 G1) as (r & st2 & -> & G2).
        - split; [done|]. apply Bc.
        - done.
        - rewrite Z.sub_0_r. clear. lia.
        - intros j Hj. split; [by eapply vi_elem|]. pose proof (Helem _ _ _ Vg Tg Dz). clear -H Mg. lia.
        - cbn. eauto. }
      destruct (Z.eqb_spec (i_type x) T_POINTER) as [Tp|Np].
      { destruct Rd as [p Hp]. { left. congruence. }
        unfold save_pointer. rewrite (rd_lu _ _ _ Ex). cbn [mbind option_bind]. rewrite Da, Hp. cbn [mbind option_bind].
        destruct (p =? 0) eqn:Pz.
        - rewrite (upd_info_eq _ _ _ _ Ex). cbn [mbind option_bind]. eexists. split; [done|]. by apply Gu.
        - rewrite Ef. cbn [mbind option_bind].
          assert (exists es, target_size W (i_aux x) (Some g) = Some es) as [es ->].
          { unfold target_size. destruct (type_size (i_aux x) =? 0); [|eauto]. destruct (f_tdp g) as [k|] eqn:Ek; [|eauto].
            destruct (Hknown _ _ _ _ Vg Ek) as [t Et]. rewrite (rd_lu _ _ _ Et). cbn. eauto. }
          cbn [mbind option_bind].
          pose proof Fo as [_ [_ Fl]]. rewrite <- Tx, Tp in Fl. change (T_POINTER =? T_ARRAY) with false in Fl. destruct Fl as (_ & _ & Fl).
          destruct (Fl eq_refl) as (Fz & Fq & _).
          assert (size_field W st idx = Some None) as ->.
          { unfold size_field. rewrite (rd_lu _ _ _ Ex). cbn [mbind option_bind]. rewrite Ef. cbn [mbind option_bind]. by rewrite Fz. }
          cbn [mbind option_bind]. rewrite Fq. cbv zeta. rewrite (upd_info_eq _ _ _ _ Ex). cbn [mbind option_bind]. eexists. split; [done|].
          apply Gu; [|by destruct (negb _ && _)]. unfold frame_info. rewrite Tp. destruct (negb _ && _); cbn; repeat split; done. }
      destruct (union_type (i_type x)) eqn:Tu; [|eauto].
      unfold save_union. rewrite (rd_lu _ _ _ Ex). cbn [mbind option_bind]. rewrite Ef. cbn [mbind option_bind]. rewrite Da.
      change (exists st', match chosen W data g with Some g' => rec (data + f_off g') g' 1 st idx | None => Some (1, st) end = Some (1, st') /\ Good st').
      destruct (chosen W data g) as [g'|] eqn:Eg; [|eauto].
      assert (exists k t dd, w_tds W !! k = Some t /\ t_fields t !! dd = Some g') as (k & t & dd & Et & Edd).
      { unfold chosen in Eg. apply bind_Some in Eg as (k & _ & Eg). apply bind_Some in Eg as (t & Et & Eg). apply bind_Some in Eg as (dd & _ & Eg). eauto. }
      destruct (HW k t Et) as (_ & Hf & _). rewrite Forall_lookup in Hf. destruct (Hf _ _ Edd) as [Fg Ng].
      assert (union_type (f_type g) = true) as Tug by (by rewrite <- Tx).
      destruct (rec_tot st K D x (data + f_off g') g' 1) as (st1 & Hr & G1 & _); try done.
      + unfold np_ok. by rewrite Ng.
      + rewrite Z.mul_1_r. apply Fg.
      + left. rewrite (sc_pencl_no _ _ _ _ C Nt). split; [by eapply vi_member|]. pose proof (Hmember _ _ _ _ Vg Tug Eg). clear -H Mg. lia.
      + eauto.
    Qed.

    Lemma added_tot st K D x : SC st K D x -> K idx = [] -> cache (s_ptrs st) = idx ->
      (exists nd, lns st !! idx = Some nd /\ is_ref nd = false) -> i_null x = false -> i_opaque x = false -> Good st ->
      seen (S d) (encl0 st0 D0 par) g data ->
      exists st', (r ← handle W rec (f_type g) idx st;
       let '(n, st) := (r : Z * sst) in
       x ← rd (s_info st) idx;
       nd ← rd (lns st) idx;
       fdp ← persistent_fd W st (i_fdp x) (parent nd);
       st ← upd_info st idx (fun y => set_fdp y fdp);
       Some (n, st)) = Some (1, st') /\ Good st'.
    Proof.
      intros C Ki Ca Nr Nl Op G Sn. destruct (handle_tot _ _ _ _ C Ki Ca Nr Nl Op G Sn) as (st1 & Hh & G1).
      destruct (handle_ok W HW rec HR st0 K0 D0 O par idx g data I0 Hidx Hpar Hoa Hpz _ _ _ _ _ _ C Ki Ca Nr Nl Op Hh) as [?|[_ (K' & D' & x' & C' & No & An)]]; [done|].
      rewrite Hh. cbn [mbind option_bind]. pose proof (c_info _ _ _ _ _ _ _ _ _ _ _ _ _ C') as Ex. rewrite (rd_lu _ _ _ Ex). cbn [mbind option_bind].
      pose proof (c_inv _ _ _ _ _ _ _ _ _ _ _ _ _ C') as I. pose proof (v_len _ _ _ _ _ I) as Ln. pose proof (v_for _ _ _ _ _ I) as R.
      pose proof (lookup_lt_Some _ _ _ Ex) as Li. destruct (lookup_lt_is_Some_2 (lns st1) idx) as [nd End]; [by rewrite <- Ln|]. rewrite (rd_lu _ _ _ End). cbn [mbind option_bind].
      assert (idx <> 0%nat) as Iz by (exact (idx_nz W st0 K0 D0 O par idx I0 Hidx Hpar Hoa Hpz)).
      destruct (v_fdp_o _ _ _ _ _ I idx x' Iz ltac:(left) Ex) as [Ef Np]. rewrite (c_d _ _ _ _ _ _ _ _ _ _ _ _ _ C') in Ef, Np. rewrite Ef.
      assert (known g) as Kn. { destruct Sn as [[Vg _]|(_ & ? & _)]; [|done]. intros k Ek. by eapply Hknown. }
      rewrite (parf_lu _ _ _ End) in Np. assert (parent nd < length (s_info st1))%nat as Lp by (rewrite Ln, <- (parf_lu _ _ _ End); apply (parf_lt _ _ R)).
      destruct (persist_def st1 K' D' (idx :: O) st1 g (parent nd) I eq_refl ltac:(done) eq_refl Lp Kn) as [h Hh']. rewrite Hh'. cbn [mbind option_bind].
      destruct (persistent_ok W HW st1 K' D' (idx :: O) st1 g (parent nd) h I eq_refl ltac:(done) Lp Np) as (g' & -> & _ & Tg & _); [|done|].
      { destruct (v_id _ _ _ _ _ I idx x' Iz Ex) as (_ & _ & _ & Fo & _). rewrite (c_d _ _ _ _ _ _ _ _ _ _ _ _ _ C') in Fo. apply Fo. }
      rewrite (upd_info_eq _ _ _ _ Ex). cbn [mbind option_bind]. eexists. split; [done|]. eapply good_upd; try done.
      cbn. intros _ h [= <-]. eauto.
    Qed.
  End Handlers.

  Lemma good_add st p data f count : Good st -> (s_heads st (key data) < length (s_info st))%nat -> length (s_info st) <> 0%nat ->
    (f_type f = T_STRUCT -> exists e, vis e f data) ->
    Good (SSt p (s_info st ++ [set_chain (new_info data f count) (s_heads st (key data))]) (fun k => if k =? key data then length (s_info st) else s_heads st k)).
  Proof.
    intros [G1 G2 G3] Lh Nz Hv. constructor; cbn [s_info s_heads].
    - intros i x Iz Ex. destruct (Nat.lt_ge_cases i (length (s_info st))) as [L|L].
      + rewrite lookup_app_l in Ex by done. by apply G1.
      + rewrite lookup_app_r in Ex by done. destruct (i - length (s_info st))%nat eqn:E; [|by destruct n]. injection Ex as <-. cbn. lia.
    - intros k. rewrite app_length. cbn. destruct (k =? key data); [lia|]. specialize (G2 k). lia.
    - intros i x h Iz Ex Tx Hf. destruct (Nat.lt_ge_cases i (length (s_info st))) as [L|L].
      + rewrite lookup_app_l in Ex by done. by eapply G3.
      + rewrite lookup_app_r in Ex by done. destruct (i - length (s_info st))%nat eqn:E; [|by destruct n]. injection Ex as <-. cbn in *. injection Hf as <-.
        destruct (Hv Tx) as [e Ve]. eauto.
  Qed.

  Lemma add_node_tot d rec data f count st par K D O h : RecOK W rec -> TotOK d rec -> Pre W st K D O par data f count -> h = s_heads st (key data) -> Good st ->
    (forall px, s_info st !! par = Some px -> ptr_or_str (i_type px) = true ->
       forall i y, reach (s_info st) (s_heads st (key data)) i -> s_info st !! i = Some y -> same_typed y (new_info data f count) = false) ->
    seen (S d) (pencl st D par) f data ->
    exists st', add_node W rec data f count h st par = Some (1, st') /\ Good st'.
  Proof.
    intros HR HTt (I & P & (npar & Ep & Rp) & px & Epx & Oa & Po & Hit & Fo & Np & Cn & Sz & Ct) -> G Un Sn.
    destruct (push_inv W st K D O par npar px f data count) as (p & Ea & Ec & I1 & X1 & P1 & K1 & N1); try done.
    { intros Ps. destruct (Ct Ps) as (C1 & C2 & C3 & C4 & C5 & C6). repeat split; try done. intros T. by apply C6. }
    { intros T i y I0 Ey Dy Ty M Cm. specialize (Un px Epx T i y (head_reach W _ _ _ _ _ I i y I0 Ey Dy) Ey).
      assert (same_typed y (new_info data f count) = true) as Q; [|congruence]. by apply (same_typed_alike W st K D O i y f data count I I0 Ey). }
    unfold add_node. cbv zeta. rewrite Ea. cbn [mbind option_bind].
    assert ((par < length (s_info st))%nat) as Lp by (eapply lookup_lt_Some; exact Epx).
    assert (Good (SSt p (s_info st ++ [set_chain (new_info data f count) (s_heads st (key data))]) (fun k => if k =? key data then length (s_info st) else s_heads st k))) as G1.
    { apply good_add; [done|apply G|clear -Lp; lia|]. intros T. destruct Sn as [[Vf _]|(T' & _)]; [eauto|]. by rewrite T' in T. }
    set (idx := length (s_info st)) in *.
    set (x0 := set_chain (new_info data f count) (s_heads st (key data))) in *.
    set (K' := fset K par (K par ++ [idx])) in *. set (D' := dset D idx f) in *. set (st1 := SSt p _ _) in *.
    assert (SC W st K D O par idx f data st1 K' D' x0) as C.
    { constructor; [exact I1|exact X1| |done|apply dset_same|exact P1|].
      + unfold st1. cbn. rewrite lookup_app_r by done. unfold idx. by rewrite Nat.sub_diag.
      + intros _. unfold K'. by rewrite fset_same. }
    exact (added_tot d rec HR HTt st K D O par idx f data I eq_refl Lp Oa ltac:(done) st1 K' D' x0 C K1 Ec N1 eq_refl eq_refl G1 Sn).
  Qed.

  Lemma seen_known d e f a : seen d e f a -> known f.
  Proof. intros [[V _]|(_ & ? & _)]; [|done]. intros k Ek. by eapply Hknown. Qed.

  Lemma save_step_tot d rec : RecOK W rec -> TotOK d rec -> TotOK (S d) (save_step W rec).
  Proof.
    intros HR HTt data f count st par K D O Hp G Sn. unfold save_step. cbv zeta.
    pose proof Hp as (I & P & _ & px & Epx & _). pose proof (gd_head _ G (key data)) as Lh.
    destruct (Nat.eqb_spec (s_heads st (key data)) 0) as [Hz|Hz].
    { eapply add_node_tot; [done|done|exact Hp|done|done| |done]. intros px' _ _ i y Hr. rewrite Hz in Hr. inversion Hr; subst; done. }
    destruct (ptr_or_str (i_type px)) eqn:Ps.
    - destruct (matched_ps_def rec _ _ _ _ _ _ _ _ Hp G px Epx Ps (S (length (s_info st))) (s_heads st (key data))) as (b & n & st1 & Hm & E1 & E2); [done|clear -Lh; lia|].
      rewrite Hm. cbn [mbind option_bind].
      destruct (matched_ps W rec _ _ _ _ _ _ _ _ Hp px Epx Ps _ _ _ _ _ Hm) as [(-> & -> & Hn)|(-> & -> & Hq)].
      + eapply add_node_tot; [done|done|exact Hp|done|done| |done]. intros px' _ _ i y Hr Ey. by eapply Hn.
      + eexists. split; [done|]. by eapply good_eq.
    - destruct (matched_member_def rec _ _ _ _ _ _ _ _ Hp G (seen_known _ _ _ _ Sn) px Epx Ps (S (length (s_info st))) (s_heads st (key data))) as (b & n & st1 & Hm & G1); [done|clear -Lh; lia|].
      rewrite Hm. cbn [mbind option_bind].
      destruct (matched_member W HW rec _ _ _ _ _ _ _ _ Hp px Epx Ps _ _ _ _ _ Hm) as [(-> & ->)|(-> & -> & Hq)].
      + eapply add_node_tot; [done|done|exact Hp|done|done| |done]. intros px' Epx' T. rewrite Epx in Epx'. injection Epx' as <-. congruence.
      + eauto.
  Qed.

  Theorem save_inner_tot d : TotOK d (save_inner W d).
  Proof.
    induction d as [|d IH].
    - intros data f count st par K D O _ _ [[_ ?]|(_ & _ & ?)]; lia.
    - cbn [save_inner]. apply save_step_tot; [by apply save_inner_ok|done].
  Qed.

  (** ** The root *)
  Lemma root_tot d : wf_root W root -> (m (root_fd root) <= d)%nat ->
    exists st, save_inner W (S d) a0 (root_fd root) 1 save_init 0%nat = Some (1, st) /\ Good st.
  Proof.
    intros [Fo Hn] Ld. cbn [save_inner]. unfold save_step. cbn [s_heads save_init Nat.eqb].
    set (g := root_fd root) in *. assert (fd_ok W g) as Fg by (by destruct root).
    assert (np_ok W (fun _ => g) 0 g) as Ng. { intros Q. left. split; [done|]. apply Hn. by destruct root. }
    pose proof (root_inv W g a0 Fg Ng) as I1. pose proof (init_inv W (fun _ => g)) as I0.
    assert (SC W save_init (fun _ => []) (fun _ => g) [] 0 1 g a0 (root_state g a0) (fun _ => []) (fun _ => g) (set_chain (new_info a0 g 1) 0)) as C.
    { constructor; try done. constructor.
      - cbn. lia.
      - intros [|i] x E; [|by destruct i]. injection E as <-. eexists. split; [done|]. done.
      - intros [|i] x Iz E; [done|by destruct i].
      - done.
      - intros i Iz Li. cbn in Li. lia.
      - intros i Iz A. apply (anc_of_zero _ _ (v_for _ _ _ _ _ I0)) in A. done.
      - intros [|i] x Iz E; [done|by destruct i].
      - intros i x Li E _. cbn in Li. destruct i as [|[|i]]; [lia| |by destruct i]. intros [?|(nd & End & Rn)]; [done|]. injection End as <-. done. }
    assert (vis None g a0) as Vg by constructor.
    eapply (added_tot d (save_inner W d) (save_inner_ok W HW d) (save_inner_tot d) save_init (fun _ => []) (fun _ => g) [] 0 1 g a0 I0 eq_refl
              Nat.lt_0_1 ltac:(by intros o ?%elem_of_nil) ltac:(done) _ _ _ _ C); try done.
    - eexists. split; done.
    - constructor.
      + intros [|[|i]] x Iz E; [done| |by destruct i]. injection E as <-. cbn. lia.
      + intros k. cbn. destruct (k =? key a0); lia.
      + intros [|[|i]] x h Iz E; [done| |by destruct i]. injection E as <-. cbn. intros Tx [= <-]. eauto.
    - left. split; [done|]. lia.
  Qed.
End Tot.
