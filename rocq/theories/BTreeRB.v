(** Proof layer: red-black rebalancing. *)
From stdpp Require Import sets.
From Verif Require Import Base BTree BTreeRep.

(** Same keys in the same order, same pool slots. *)
Definition same (t t' : bt) : Prop := inord t = inord t'.
Lemma same_refl t : same t t. Proof. done. Qed.
Lemma same_trans t1 t2 t3 : same t1 t2 -> same t2 t3 -> same t1 t3.
Proof. unfold same. congruence. Qed.
Lemma same_sym t1 t2 : same t1 t2 -> same t2 t1.
Proof. by unfold same. Qed.
Lemma same_plug t t' fs : same t t' -> same (plug t fs) (plug t' fs).
Proof. apply inord_plug_eq. Qed.
Lemma same_ids t t' : same t t' -> ids t = ids t'.
Proof. unfold same. intros H. by rewrite <- !inord_ids, H. Qed.
Lemma same_keys t t' : same t t' -> inorder t = inorder t'.
Proof. unfold same. intros H. by rewrite <- !inord_keys, H. Qed.
Ltac same_solve := unfold same; rewrite ?inord_ND; cbn [inord negb]; by simplify_list_eq.

Lemma Node_ND d i k x y l r :
  Node i k x y l r = ND d i k x y (if d then r else l) (if d then l else r).
Proof. by destruct d. Qed.

(** *** Red-black predicates *)
Definition red (t : bt) : bool := match t with Leaf => false | Node _ _ _ y _ _ => y end.
Fixpoint rb (t : bt) (h : nat) : Prop :=
  match t with
  | Leaf => h = 0
  | Node _ _ _ true l r => rb l h /\ rb r h /\ red l = false /\ red r = false
  | Node _ _ _ false l r => match h with 0 => False | S h => rb l h /\ rb r h end
  end.
Fixpoint rbctx (fs : list frame) (h : nat) : Prop :=
  match fs with
  | [] => True
  | f :: fs =>
    rb (fsib f) h /\
    if fy f then red (fsib f) = false /\ match fs with [] => False | g :: _ => fy g = false end /\ rbctx fs h
    else rbctx fs (S h)
  end.
Definition pred_red (fs : list frame) : bool := match fs with [] => false | f :: _ => fy f end.

Definition rbInv (t : bt) : Prop := (exists h, rb t h) /\ red t = false.

Lemma rb_ND d i k x y a b h :
  rb (ND d i k x y a b) h <->
  if y then rb a h /\ rb b h /\ red a = false /\ red b = false
  else match h with 0 => False | S h => rb a h /\ rb b h end.
Proof. destruct d, y, h; cbn; naive_solver. Qed.
Lemma red_ND d i k x y a b : red (ND d i k x y a b) = y.
Proof. by destruct d. Qed.

Lemma rb_plug fs t h :
  rbctx fs h -> rb t h -> (pred_red fs = true -> red t = false) ->
  exists h', rb (plug t fs) h' /\ (fs <> [] -> red (plug t fs) = false).
Proof.
  revert t h. induction fs as [|f fs IH]; intros t h Hc Ht Hr; cbn [plug].
  - exists h. done.
  - cbn [rbctx pred_red] in *. destruct Hc as [Hs Hc].
    assert (exists h', rb (plug1 t f) h' /\ rbctx fs h') as (h' & Ht' & Hc').
    { unfold plug1. destruct (fy f) eqn:Ef.
      - exists h. rewrite rb_ND. naive_solver.
      - exists (S h). rewrite rb_ND. naive_solver. }
    destruct (IH (plug1 t f) h' Hc' Ht') as (h2 & H2 & H3).
    + unfold plug1. rewrite red_ND. destruct fs as [|g fs]; [done|]. cbn. intros Hg.
      destruct (fy f) eqn:Ef; [|done]. destruct Hc as (_ & Hc & _). congruence.
    + exists h2. split; [done|]. intros _. destruct fs as [|g fs].
      * cbn. unfold plug1. rewrite red_ND. destruct (fy f) eqn:Ef; [|done]. by destruct Hc as (_ & [] & _).
      * by apply H3.
Qed.

Lemma rb_unplug fs t h' :
  rb (plug t fs) h' -> (fs <> [] -> red (plug t fs) = false) ->
  exists h, rbctx fs h /\ rb t h /\ (pred_red fs = true -> red t = false).
Proof.
  revert t. induction fs as [|f fs IH]; intros t Ht Hr; cbn [plug] in *.
  - exists h'. done.
  - destruct (IH (plug1 t f) Ht) as (h & H1 & H2 & H3).
    { intros _. by apply Hr. }
    unfold plug1 in H2, H3. rewrite red_ND in H3. rewrite rb_ND in H2.
    destruct (fy f) eqn:Ef.
    + exists h. cbn [rbctx pred_red]. rewrite Ef. destruct H2 as (H2 & H4 & H5 & H6).
      split; [|done]. split; [done|]. split; [done|]. split; [|done].
      destruct fs as [|g fs].
      * cbn in Hr. specialize (Hr ltac:(done)). unfold plug1 in Hr. rewrite red_ND in Hr. congruence.
      * cbn in H3. destruct (fy g); [|done]. naive_solver.
    + destruct h as [|h]; [done|]. exists h. cbn [rbctx pred_red]. rewrite Ef. naive_solver.
Qed.

Lemma rb_erase t t' h : erase t = erase t' -> rb t h -> rb t' h.
Proof.
  assert (Hred : forall t t', erase t = erase t' -> red t = red t').
  { intros [|] [|] E; try done. by inversion E. }
  revert t' h. induction t as [|i k x y l IHl r IHr]; intros [|i' k' x' y' l' r'] h E; try done.
  cbn in E. inversion E as [[E1 E2 E3 E4]]. subst x' y'. cbn. destruct y.
  - intros (H1 & H2 & H3 & H4). rewrite <- (Hred _ _ E3), <- (Hred _ _ E4). naive_solver.
  - destruct h; naive_solver.
Qed.
Lemma rbInv_erase t t' : erase t = erase t' -> rbInv t -> rbInv t'.
Proof.
  intros E [[h H] Hr]. split; [exists h; by eapply rb_erase|].
  destruct t, t'; try done. by inversion E; subst.
Qed.

(** *** Reads of colours *)
Lemma repf_zero p i fs : repf p i (fs ++ [S0]) -> exists n, p !! 0 = Some n /\ b1 n = false.
Proof.
  revert i. induction fs as [|f fs IH]; intros i; cbn.
  - intros (H & _). eexists. split; [exact H|done].
  - intros (_ & _ & H). by eapply IH.
Qed.
Lemma get_red p t : (exists n, p !! 0 = Some n /\ b1 n = false) -> rep p t -> get_b1 p (rid t) = Some (red t).
Proof.
  intros (n & H0 & Hn) H. destruct t as [|i k x y l r]; cbn [rid red].
  - rewrite (get_b1_Some _ _ _ H0). by rewrite Hn.
  - destruct H as [H _]. by rewrite (get_b1_Some _ _ _ H).
Qed.
Lemma zr_zero p t fs : zr p t (fs ++ [S0]) -> exists n, p !! 0 = Some n /\ b1 n = false.
Proof. intros (_ & H & _). by eapply repf_zero. Qed.

Ltac bind := cbn [mbind option_bind].

(** Recolouring of the root of the focus. *)
Lemma zr_paint p d i k x y a b fs c :
  zr p (ND d i k x y a b) fs ->
  exists p', upd p i (set_b1 c) = Some p' /\ length p' = length p /\ zr p' (ND d i k x c a b) fs.
Proof.
  intros H. destruct (zr_set p d i k x y a b fs (set_b1 c) k x c H) as (p' & E & El & Hz & _).
  - by destruct d.
  - eauto.
Qed.

Lemma frames_cons fs : exists f F, fs ++ [S0] = f :: F.
Proof. destruct fs; cbn; eauto. Qed.

Lemma rb_add_loop_ok fuel : forall fs p t h path,
  length fs < fuel -> zr p t (fs ++ [S0]) -> red t = true -> rb t h -> rbctx fs h ->
  path_ok path (fs ++ [S0]) -> path_idx path (length fs + 1) = Some (rid t) ->
  exists p' t', rb_add_loop fuel p path (length fs + 1) = Some p' /\ length p' = length p /\
    whole p' t' /\ same (plug t fs) t' /\ exists h', rb t' h'.
Proof.
  induction fuel as [|fuel IH]; intros fs p t h path Hfuel Hz Hred Hrb Hc Hp Hpi; [lia|].
  destruct fs as [|f [|g fs]].
  - cbn. exists p, t. split_and!; try done. by exists h.
  - cbn. exists p, (plug1 t f). split; [done|]. split; [done|].
    split; [by apply (zr_plug _ _ [f])|]. split; [done|].
    destruct Hc as [Hs Hc]. destruct (fy f) eqn:Ef; [by destruct Hc as (_ & [] & _)|].
    exists (S h). unfold plug1. apply rb_ND. by rewrite Ef.
  - cbn [rb_add_loop length].
    destruct (Nat.ltb_spec 2 (S (S (length fs)) + 1)) as [_|]; [|lia].
    replace (S (S (length fs)) + 1 - 1) with (S (length fs + 1)) by lia.
    replace (S (S (length fs)) + 1 - 2) with (length fs + 1) by lia.
    cbn [length] in Hpi. replace (S (S (length fs)) + 1) with (S (S (length fs + 1))) in * by lia.
    cbn [path_ok app] in Hp. destruct Hp as (Hpf & Hpg & Hp).
    cbn [length] in Hpf. rewrite app_length in Hpf, Hpg. cbn [length] in Hpf, Hpg.
    rewrite (path_idx_Some _ _ _ Hpf). bind. cbn [fst].
    cbn [app] in Hz. pose proof (zr_read_fr _ _ _ _ Hz) as Rf.
    rewrite (get_b1_Some _ _ _ Rf). bind. rewrite b1_fcell.
    destruct (fy f) eqn:Ef.
    2:{ exists p, (plug t (f :: g :: fs)). split; [done|]. split; [done|].
        split; [by apply (zr_plug _ _ (f :: g :: fs))|]. split; [done|].
        destruct (rb_plug (f :: g :: fs) t h) as (h' & Hh & _); [done|done| |by eauto].
        cbn. congruence. }
    cbn [rbctx] in Hc. rewrite Ef in Hc. destruct Hc as (Hsf & Hsfr & Hg & Hsg & Hc). rewrite Hg in Hc.
    rewrite Hpi. bind.
    rewrite (path_idx_Some _ _ _ Hpg), (path_dir_Some _ _ _ Hpg). bind. cbn [fst snd].
    destruct f as [fi fkk fxx fyy d sf], g as [gi gk gx gy e sg]. cbn [fid fk fx fy fd fsib] in *. subst fyy gy.
    (* view from the grand parent *)
    pose proof (proj2 (zr_down _ _ _ _ _ _ _ _ _) Hz) as Hz1.
    pose proof (zr_read_fr _ _ _ _ Hz1) as Rg. cbn [fid] in Rg. rewrite rid_ND in Rg.
    rewrite (get_next_Some _ _ _ (negb e) Rg). bind.
    assert (Eu : next (fcell (Fr gi gk gx false e sg) fi) (negb e) = rid sg) by (by destruct e).
    rewrite !Eu.
    pose proof (proj2 (zr_down _ _ _ _ _ _ _ _ _) Hz1) as Hz2.
    assert (Hsgrep : rep p sg) by (destruct Hz2 as (Hz2 & _); apply rep_ND in Hz2; naive_solver).
    rewrite (get_red p sg (zr_zero p _ _ Hz2) Hsgrep). bind.
    destruct (red sg) eqn:Esg; cbn [negb].
    + (* red uncle *)
      destruct sg as [|u uk ux uy ul ur]; [done|]. cbn in Esg. subst uy. cbn [rid].
      destruct (zr_paint _ _ _ _ _ _ _ _ _ false Hz1) as (p1 & E1 & L1 & Hz3).
      rewrite E1. bind.
      pose proof (proj2 (zr_down _ _ _ _ _ _ _ _ _) Hz3) as Hz4.
      rewrite <- ND_neg in Hz4. pose proof (proj1 (zr_down _ _ _ _ _ _ _ _ _) Hz4) as Hz5.
      rewrite (Node_ND false) in Hz5.
      destruct (zr_paint _ _ _ _ _ _ _ _ _ false Hz5) as (p2 & E2 & L2 & Hz6).
      rewrite E2. bind.
      pose proof (proj2 (zr_down _ _ _ _ _ _ _ _ _) Hz6) as Hz7.
      destruct (zr_paint _ _ _ _ _ _ _ _ _ true Hz7) as (p3 & E3 & L3 & Hz8).
      rewrite E3. bind. cbn [ND] in Hz8.
      destruct (IH fs p3 (ND (negb e) gi gk gx true (Node u uk ux false ul ur)
                     (ND d fi fkk fxx false t sf)) (S h) path) as (p' & t' & E & L & Hw & Hs & h' & Hh).
      * cbn in Hfuel. lia.
      * done.
      * apply red_ND.
      * apply rb_ND. rewrite red_ND. split; [|split; [by apply rb_ND|done]]. destruct Hsg as (? & ? & _). done.
      * done.
      * done.
      * rewrite rid_ND. by rewrite (path_idx_Some _ _ _ Hpg).
      * exists p', t'. split; [done|]. split; [congruence|]. split; [done|]. split; [|by exists h'].
        eapply same_trans; [|exact Hs]. cbn [plug]. apply same_plug. unfold plug1.
        cbn [fid fk fx fy fd fsib]. destruct d, e; same_solve.
    + (* black uncle *)
      rewrite (get_next_Some _ _ _ (negb e) Rf). bind.
      destruct t as [|ti tk tx ty tl tr]; [done|]. cbn in Hred. subst ty. cbn [rid].
      destruct (frames_cons fs) as (F1 & FS & EF).
      assert (Hp1 : path !! length fs = Some (fid F1, fd F1) /\ path_ok path FS).
      { rewrite EF in Hp. cbn in Hp. assert (length FS = length fs); [|congruence].
        apply (f_equal length) in EF. rewrite app_length in EF. cbn in EF. lia. }
      destruct Hp1 as [Hp1 _].
      replace (length fs + 1) with (S (length fs)) in * by lia.
      replace (S (length fs) + 1) with (S (S (length fs))) by lia.
      destruct (decide (d = e)) as [<-|Hde].
      * (* outer grandson *)
        assert (Eb : Nat.eqb ti (next (fcell (Fr fi fkk fxx true d sf) ti) (negb d)) = false).
        { change d with (fd (Fr fi fkk fxx true d sf)) at 2. rewrite next_fcell_neg. cbn [fsib].
          apply Nat.eqb_neq. intros Ht.
          destruct sf as [|si sk sx sy sl sr].
          - cbn in Ht. apply (zr_rid_nz p _ (_ :: _ :: _) Hz); [done|]. done.
          - cbn in Ht. destruct Hz as (_ & _ & Hnd). cbn in Hnd.
            rewrite Ht in Hnd. apply NoDup_app in Hnd as (_ & Hnd & _).
            apply (Hnd si); set_solver. }
        rewrite Eb. cbn [negb].
        destruct (zr_paint _ _ _ _ _ _ _ _ _ false Hz1) as (p1 & E1 & L1 & Hz3).
        rewrite E1. bind.
        pose proof (proj2 (zr_down _ _ _ _ _ _ _ _ _) Hz3) as Hz4. rewrite EF in Hz4.
        destruct (rotate_ok _ path (length fs) _ _ _ _ _ _ _ _ _ _ _ _ _ _ Hz4) as (p2 & E2 & L2 & Hz5).
        { by rewrite (path_idx_Some _ _ _ Hpg). }
        { done. }
        rewrite E2. bind. rewrite ND_neg in Hz5. rewrite <- (ND_neg d fi) in Hz5.
        pose proof (proj1 (zr_down _ _ _ _ _ _ _ _ _) Hz5) as Hz6.
        destruct (zr_paint _ _ _ _ _ _ _ _ _ true Hz6) as (p3 & E3 & L3 & Hz7).
        rewrite E3. pose proof (proj2 (zr_down _ _ _ _ _ _ _ _ _) Hz7) as Hz8.
        rewrite <- EF in Hz8. apply zr_plug in Hz8.
        eexists p3, _. split; [done|]. split; [congruence|]. split; [exact Hz8|].
        split; [cbn [plug]; apply same_plug; unfold plug1; cbn [fid fk fx fy fd fsib]; destruct d; same_solve|].
        match type of Hz8 with zr _ (plug ?X _) _ => destruct (rb_plug fs X (S h)) as (h' & Hh & _) end;
          [done| |by rewrite red_ND|by eauto].
        rewrite rb_ND. rewrite rb_ND. done.
      * (* inner grandson *)
        assert (He : d = negb e) by (by destruct d, e). subst d.
        assert (Eb : next (fcell (Fr fi fkk fxx true (negb e) sf) ti) (negb e) = ti) by (by destruct e).
        rewrite Eb, Nat.eqb_refl. cbn [negb].
        rewrite (Node_ND (negb e)) in Hz1.
        set (a := if negb e then tr else tl) in *. set (b := if negb e then tl else tr) in *.
        assert (Hab : rb a h /\ rb b h /\ red a = false /\ red b = false).
        { unfold a, b. destruct e; cbn in Hrb |- *; naive_solver. }
        destruct (rotate_ok _ path (S (length fs)) _ _ _ _ _ _ _ _ _ _ _ _ _ _ Hz1) as (p1 & E1 & L1 & Hz3).
        { by rewrite (path_idx_Some _ _ _ Hpf). }
        { done. }
        rewrite E1. bind.
        destruct (zr_paint _ _ _ _ _ _ _ _ _ false Hz3) as (p2 & E2 & L2 & Hz4).
        rewrite E2. bind.
        pose proof (proj2 (zr_down _ _ _ _ _ _ _ _ _) Hz4) as Hz5. rewrite EF in Hz5.
        rewrite (ND_neg e ti) in Hz5.
        destruct (rotate_ok _ path (length fs) _ _ _ _ _ _ _ _ _ _ _ _ _ _ Hz5) as (p3 & E3 & L3 & Hz6).
        { by rewrite (path_idx_Some _ _ _ Hpg). }
        { done. }
        rewrite E3. bind. rewrite <- (ND_neg e ti) in Hz6.
        pose proof (proj1 (zr_down _ _ _ _ _ _ _ _ _) Hz6) as Hz7.
        destruct (zr_paint _ _ _ _ _ _ _ _ _ true Hz7) as (p4 & E4 & L4 & Hz8).
        rewrite E4. pose proof (proj2 (zr_down _ _ _ _ _ _ _ _ _) Hz8) as Hz9.
        rewrite <- EF in Hz9. apply zr_plug in Hz9.
        eexists p4, _. split; [done|]. split; [congruence|]. split; [exact Hz9|].
        split.
        { cbn [plug]; apply same_plug; unfold plug1; cbn [fid fk fx fy fd fsib].
          rewrite (Node_ND (negb e)). fold a b. destruct e; same_solve. }
        match type of Hz9 with zr _ (plug ?X _) _ => destruct (rb_plug fs X (S h)) as (h' & Hh & _) end;
          [done| |by rewrite red_ND|by eauto].
        rewrite !rb_ND. naive_solver.
Qed.

(** *** mr_rbtree_rebalance_add *)
Lemma upd_root p t c :
  whole p t -> exists p', upd p (rid t) (set_b1 c) = Some p' /\ length p' = length p /\
    match t with
    | Leaf => True
    | Node i k x y l r => whole p' (Node i k x c l r)
    end.
Proof.
  intros H. destruct t as [|i k x y l r]; cbn [rid].
  - destruct H as (_ & (H & _) & _). cbn in H. eexists. split; [by apply upd_Some|]. split; [|done].
    apply insert_length.
  - unfold whole in H. rewrite (Node_ND false) in H.
    destruct (zr_paint _ _ _ _ _ _ _ _ _ c H) as (p' & E & L & H'). eauto.
Qed.

Lemma rb_black_root t h : rb t h -> match t with
    | Leaf => True
    | Node i k x y l r => rbInv (Node i k x false l r)
    end.
Proof.
  destruct t as [|i k x y l r]; [done|]. cbn. intros H. split; [|done].
  destruct y; [exists (S h); naive_solver|]. exists h. done.
Qed.

Lemma rb_rebalance_add_ok fs p path i k x y :
  zr p (Node i k x y Leaf Leaf) (fs ++ [S0]) -> rbInv (plug Leaf fs) ->
  path_ok path (fs ++ [S0]) -> path_idx path (length fs + 1) = Some i -> length fs < PATH ->
  exists p' t', rb_rebalance_add p path (length fs + 1) = Some p' /\ length p' = length p /\
    whole p' t' /\ same (plug (Node i k x y Leaf Leaf) fs) t' /\ rbInv t'.
Proof.
  intros Hz [[h' Hi] Hr] Hp Hpi Hlen. unfold rb_rebalance_add. rewrite Hpi. bind.
  destruct (rb_unplug _ _ _ Hi (fun _ => Hr)) as (h & Hc & Hh & _). cbn in Hh. subst h.
  rewrite (Node_ND false) in Hz.
  destruct (zr_paint _ _ _ _ _ _ _ _ _ true Hz) as (p1 & E1 & L1 & Hz1). rewrite E1. bind.
  cbn [ND] in Hz1.
  replace (length fs + 1 - 1) with (length fs) by lia.
  destruct (frames_cons fs) as (F1 & FS & EF).
  assert (Hp1 : path !! length fs = Some (fid F1, fd F1)).
  { rewrite EF in Hp. cbn in Hp. assert (length FS = length fs); [|naive_solver congruence].
    apply (f_equal length) in EF. rewrite app_length in EF. cbn in EF. lia. }
  rewrite (path_idx_Some _ _ _ Hp1). bind. cbn [fst].
  assert (R : p1 !! fid F1 = Some (fcell F1 i)).
  { rewrite EF in Hz1. by apply zr_read_fr in Hz1. }
  rewrite (get_b1_Some _ _ _ R), b1_fcell. bind.
  assert (exists p2 t2, (if fy F1 then rb_add_loop (S PATH) p1 path (length fs + 1) else Some p1) = Some p2 /\
    length p2 = length p1 /\ whole p2 t2 /\ same (plug (Node i k x true Leaf Leaf) fs) t2 /\
    exists h', rb t2 h') as (p2 & t2 & E2 & L2 & Hw & Hs & h2 & Hh2).
  { destruct (fy F1) eqn:EF1.
    - apply (rb_add_loop_ok (S PATH) fs p1 _ 0 path); try done. unfold PATH in *. lia.
    - exists p1, (plug (Node i k x true Leaf Leaf) fs). split; [done|]. split; [done|].
      split; [by apply zr_plug|]. split; [done|].
      destruct (rb_plug fs (Node i k x true Leaf Leaf) 0) as (h2 & Hh2 & _); [done|done| |by eauto].
      intros Hpr. destruct fs as [|f fs]; [done|]. cbn in EF, Hpr. inversion EF. subst. congruence. }
  rewrite E2. bind.
  assert (R0 : p2 !! 0 = Some (fcell S0 (rid t2))) by (by apply zr_read_fr in Hw).
  rewrite (get_next_Some _ _ _ false R0). bind. cbn [fcell S0 fd next nl].
  destruct (upd_root _ _ false Hw) as (p3 & E3 & L3 & Hw3).
  pose proof (rb_black_root _ _ Hh2) as Hi3.
  destruct t2 as [|i2 k2 x2 y2 l2 r2].
  { exfalso. apply same_keys in Hs. rewrite inorder_plug in Hs. cbn in Hs. by destruct (cl fs). }
  eexists p3, _. split; [exact E3|]. split; [congruence|]. split; [exact Hw3|]. split; [|done].
  eapply same_trans; [|eapply same_trans; [exact Hs|]]; [|done]. by apply same_plug.
Qed.

(** *** mr_rbtree_rebalance_del *)
Definition blk (t : bt) : bt :=
  match t with Leaf => Leaf | Node i k x y l r => Node i k x false l r end.
Lemma blk_ND d i k x y a b : blk (ND d i k x y a b) = ND d i k x false a b.
Proof. by destruct d. Qed.

Lemma rb_del_tail_ok p path pi pk px y d b2 k2 x2 in2 oi ok ox oc o1 o2 t fs h :
  zr p t (Fr pi pk px y d (ND d b2 k2 x2 false in2 (ND d oi ok ox oc o1 o2)) :: fs ++ [S0]) ->
  rb t h -> rb in2 h -> rb o1 h -> rb o2 h ->
  path_ok path (fs ++ [S0]) -> path_idx path (length fs + 1) = Some pi ->
  exists p' t',
    (pred ← get_b1 p pi;
     p ← upd p b2 (set_b1 pred);
     p ← upd p pi (set_b1 false);
     outer ← get_next p b2 (negb d);
     p ← upd p outer (set_b1 false);
     p ← rotate p path (length fs + 1) (negb d);
     Some (p, true)) = Some (p', true) /\ length p' = length p /\
    zr p' t' (fs ++ [S0]) /\
    same (ND d pi pk px y t (ND d b2 k2 x2 false in2 (ND d oi ok ox oc o1 o2))) t' /\
    red t' = y /\ rb t' (if y then S h else S (S h)).
Proof.
  intros Hz Ht Hin Ho1 Ho2 Hp Hpi.
  pose proof (zr_read_fr _ _ _ _ Hz) as R. cbn [fid] in R.
  rewrite (get_b1_Some _ _ _ R), b1_fcell. bind. cbn [fy].
  pose proof (proj2 (zr_down _ _ _ _ _ _ _ _ _) Hz) as Hz1.
  rewrite <- (ND_neg d pi) in Hz1. pose proof (proj1 (zr_down _ _ _ _ _ _ _ _ _) Hz1) as Hz2.
  destruct (zr_paint _ _ _ _ _ _ _ _ _ y Hz2) as (p1 & E1 & L1 & Hz3). rewrite E1. bind.
  pose proof (proj2 (zr_down _ _ _ _ _ _ _ _ _) Hz3) as Hz4.
  destruct (zr_paint _ _ _ _ _ _ _ _ _ false Hz4) as (p2 & E2 & L2 & Hz5). rewrite E2. bind.
  pose proof (proj1 (zr_down _ _ _ _ _ _ _ _ _) Hz5) as Hz6.
  pose proof (zr_read_ND _ _ _ _ _ _ _ _ _ Hz6) as R2.
  rewrite (get_next_Some _ _ _ (negb d) R2). bind.
  assert (Eo : next (fcell (Fr b2 k2 x2 y d (ND d oi ok ox oc o1 o2)) (rid in2)) (negb d) = oi)
    by (by destruct d). rewrite Eo.
  rewrite <- (ND_neg d b2) in Hz6.
  pose proof (proj1 (zr_down _ _ _ _ _ _ _ _ _) Hz6) as Hz7.
  destruct (zr_paint _ _ _ _ _ _ _ _ _ false Hz7) as (p3 & E3 & L3 & Hz8). rewrite E3. bind.
  pose proof (proj2 (zr_down _ _ _ _ _ _ _ _ _) Hz8) as Hz9.
  pose proof (proj2 (zr_down _ _ _ _ _ _ _ _ _) Hz9) as Hz10.
  destruct (frames_cons fs) as (F1 & FS & EF). rewrite EF in Hz10.
  replace (length fs + 1) with (S (length fs)) in * by lia.
  destruct (rotate_ok _ path (length fs) _ _ _ _ _ _ _ _ _ _ _ _ _ _ Hz10) as (p4 & E4 & L4 & Hz11).
  { done. }
  { rewrite EF in Hp. cbn in Hp. assert (length FS = length fs); [|naive_solver congruence].
    apply (f_equal length) in EF. rewrite app_length in EF. cbn in EF. lia. }
  rewrite E4. bind. rewrite <- EF in Hz11.
  eexists p4, _. split; [done|]. split; [congruence|]. split; [exact Hz11|].
  split; [destruct d; same_solve|]. split; [by rewrite red_ND|].
  destruct y; rewrite !rb_ND, ?red_ND; naive_solver.
Qed.

Lemma rb_del_brother_ok p path pi pk px y d bi bk bx bn bo t fs h :
  zr p t (Fr pi pk px y d (ND d bi bk bx false bn bo) :: fs ++ [S0]) ->
  rb t h -> rb bn h -> rb bo h ->
  path_ok path (fs ++ [S0]) -> path !! (length fs + 1) = Some (pi, d) ->
  length fs + 2 < length path ->
  exists p' brk, rb_del_brother p path (length fs + 2) pi d bi = Some (p', brk) /\ length p' = length p /\
    if (brk : bool) then
      exists t', zr p' t' (fs ++ [S0]) /\
        same (ND d pi pk px y t (ND d bi bk bx false bn bo)) t' /\ red t' = y /\
        rb t' (if y then S h else S (S h))
    else
      red bn = false /\ red bo = false /\
      zr p' t (Fr pi pk px y d (ND d bi bk bx true bn bo) :: fs ++ [S0]).
Proof.
  intros Hz Ht Hbn Hbo Hp Hpi Hlen. unfold rb_del_brother.
  replace (length fs + 2) with (S (length fs + 1)) in * by lia.
  pose proof (proj2 (zr_down _ _ _ _ _ _ _ _ _) Hz) as Hz1.
  rewrite <- (ND_neg d pi) in Hz1. pose proof (proj1 (zr_down _ _ _ _ _ _ _ _ _) Hz1) as Hz2.
  pose proof (zr_zero _ _ (_ :: fs) Hz2) as H0.
  pose proof (zr_read_ND _ _ _ _ _ _ _ _ _ Hz2) as Rb.
  destruct (proj1 (rep_ND _ _ _ _ _ _ _ _) (proj1 Hz2)) as (_ & Rbn & Rbo).
  pose proof (get_red p bn H0 Rbn) as Gn. pose proof (get_red p bo H0 Rbo) as Go.
  rewrite !(get_next_Some _ _ _ _ Rb). bind.
  assert (Ered : forall (K : bool -> option (list node * bool)),
     (blr ← get_b1 p (next (fcell (Fr bi bk bx false d bo) (rid bn)) false);
      brr ← get_b1 p (next (fcell (Fr bi bk bx false d bo) (rid bn)) true);
      K (blr || brr)) = K (red bn || red bo)).
  { intros K. destruct d; cbn [fcell fd next nl nr fsib]; rewrite Gn, Go; bind; [by rewrite orb_comm|done]. }
  rewrite (Ered (fun b => if b then _ else _)).
  assert (En : next (fcell (Fr bi bk bx false d bo) (rid bn)) d = rid bn) by (by destruct d).
  rewrite !En. rewrite Gn. bind.
  destruct (red bn) eqn:Ebn; cbn [orb].
  - (* inner nephew red *)
    destruct bn as [|ni nk nx ny nl nr]; [done|]. cbn in Ebn. subst ny. cbn [rid].
    rewrite (Node_ND d) in Hz2.
    set (nd := if d then nr else nl) in *. set (nn := if d then nl else nr) in *.
    assert (Hnn : rb nd h /\ rb nn h) by (unfold nd, nn; destruct d; cbn in Hbn; naive_solver).
    pose proof (proj1 (zr_down _ _ _ _ _ _ _ _ _) Hz2) as Hz3.
    destruct (zr_paint _ _ _ _ _ _ _ _ _ false Hz3) as (p1 & E1 & L1 & Hz4). rewrite E1. bind.
    pose proof (proj2 (zr_down _ _ _ _ _ _ _ _ _) Hz4) as Hz5.
    destruct (zr_paint _ _ _ _ _ _ _ _ _ true Hz5) as (p2 & E2 & L2 & Hz6). rewrite E2. bind.
    destruct (lookup_lt_is_Some_2 path (S (length fs + 1))) as [e He]; [lia|].
    rewrite (upd_Some _ _ _ _ He). bind.
    set (path1 := <[S (length fs + 1) := set_idx bi e]> path).
    replace (S (length fs + 1) - 1) with (length fs + 1) by lia.
    assert (Hpi1 : path1 !! (length fs + 1) = Some (pi, d)).
    { unfold path1. by rewrite list_lookup_insert_ne by lia. }
    rewrite (upd_Some _ _ _ _ Hpi1). bind. cbn [snd set_dir fst].
    set (path2 := <[length fs + 1 := _]> path1).
    assert (Hpi2 : path2 !! (length fs + 1) = Some (pi, negb d)) by (unfold path2; by erewrite ins_eq).
    destruct (rotate_ok _ path2 (length fs + 1) _ _ _ _ _ _ _ _ _ _ _ _ _ _ Hz6) as (p3 & E3 & L3 & Hz7).
    { unfold path2, path1. erewrite path_idx_Some.
      2:{ rewrite list_lookup_insert_ne by lia. by erewrite ins_eq. } done. }
    { done. }
    rewrite E3. bind.
    pose proof (proj2 (zr_down _ _ _ _ _ _ _ _ _) Hz7) as Hz8.
    rewrite !ND_neg in Hz8. pose proof (proj1 (zr_down _ _ _ _ _ _ _ _ _) Hz8) as Hz9.
    destruct (rb_del_tail_ok p3 path2 _ _ _ _ _ _ _ _ _ _ _ _ _ _ _ _ _ h Hz9) as (p' & t' & E & L & Hzt & Hs & Hr & Hb);
      try naive_solver.
    { apply path_ok_ins; [rewrite app_length; cbn; lia|]. apply path_ok_ins; [rewrite app_length; cbn; lia|done]. }
    { by rewrite (path_idx_Some _ _ _ Hpi2). }
    exists p', true. split; [exact E|]. split; [congruence|]. exists t'. split; [done|]. split; [|done].
    eapply same_trans; [|exact Hs]. rewrite (Node_ND d). fold nd nn. destruct d; same_solve.
  - destruct (red bo) eqn:Ebo.
    + (* only the outer nephew is red *)
      destruct bo as [|oi ok ox oy ol or]; [done|]. cbn in Ebo. subst oy. bind.
      replace (S (length fs + 1) - 1) with (length fs + 1) by lia.
      rewrite (Node_ND d) in Hz.
      destruct (rb_del_tail_ok p path _ _ _ _ _ _ _ _ _ _ _ _ _ _ _ _ _ h Hz) as (p' & t' & E & L & Hzt & Hs & Hr & Hb);
        try done.
      { destruct d; cbn in Hbo; naive_solver. }
      { destruct d; cbn in Hbo; naive_solver. }
      { by rewrite (path_idx_Some _ _ _ Hpi). }
      exists p', true. split; [exact E|]. split; [done|]. exists t'. split; [done|]. split; [|done].
      rewrite (Node_ND d). done.
    + destruct (zr_paint _ _ _ _ _ _ _ _ _ true Hz2) as (p1 & E1 & L1 & Hz3). rewrite E1. bind.
      exists p1, false. split; [done|]. split; [done|]. split; [done|]. split; [done|].
      pose proof (proj2 (zr_down _ _ _ _ _ _ _ _ _) Hz3) as Hz4. rewrite ND_neg in Hz4.
      by apply zr_down.
Qed.

Definition Sb (b : bool) : frame := Fr 0 0 false b false Leaf.

Lemma first_frame path fs : path_ok path (fs ++ [S0]) ->
  exists F FS, fs ++ [S0] = F :: FS /\ path !! length fs = Some (fid F, fd F).
Proof.
  intros Hp. destruct (frames_cons fs) as (F1 & FS & EF). exists F1, FS. split; [done|].
  rewrite EF in Hp. cbn in Hp. assert (length FS = length fs); [|naive_solver congruence].
  apply (f_equal length) in EF. rewrite app_length in EF. cbn in EF. lia.
Qed.

Lemma rb_del_loop_red fuel fs p t h path :
  0 < fuel -> zr p t (fs ++ [S0]) -> red t = true -> rb (blk t) h -> rbctx fs h ->
  path_ok path (fs ++ [S0]) ->
  exists p' t', rb_del_loop fuel p path (length fs + 1) = Some p' /\ length p' = length p /\
    whole p' t' /\ same (plug t fs) t' /\ exists h', rb t' h'.
Proof.
  intros Hfu Hz Hr Hb Hc Hp. destruct fuel as [|fuel]; [lia|]. cbn [rb_del_loop].
  destruct (Nat.eqb_spec (length fs + 1) 0) as [|_]; [lia|].
  replace (length fs + 1 - 1) with (length fs) by lia.
  destruct (first_frame _ _ Hp) as (F & FS & EF & Hpf).
  rewrite (path_idx_Some _ _ _ Hpf), (path_dir_Some _ _ _ Hpf). bind. cbn [fst snd].
  pose proof Hz as Hz'. rewrite EF in Hz'. pose proof (zr_read_fr _ _ _ _ Hz') as R.
  rewrite !(get_next_Some _ _ _ _ R). bind. rewrite next_fcell.
  rewrite (get_red p t (zr_zero _ _ _ Hz) (proj1 Hz)), Hr. bind.
  destruct t as [|i k x y l r]; [done|]. cbn [rid]. rewrite (Node_ND false) in Hz.
  destruct (zr_paint _ _ _ _ _ _ _ _ _ false Hz) as (p1 & E1 & L1 & Hz1). rewrite E1.
  eexists p1, _. split; [done|]. split; [done|]. split; [by apply zr_plug|].
  split; [by apply same_plug|].
  destruct (rb_plug fs (Node i k x false l r) h) as (h' & Hh & _); [done|done|done|eauto].
Qed.

Lemma rb_del_loop_ok fs : forall p t h path fuel,
  length fs + 2 < fuel -> zr p t (fs ++ [S0]) ->
  (if red t then rb (blk t) (S h) else rb t h) -> rbctx fs (S h) ->
  path_ok path (fs ++ [S0]) -> length fs + 3 <= length path ->
  exists p' t' b, rb_del_loop fuel p path (length fs + 1) = Some p' /\ length p' = length p /\
    zr p' t' [Sb b] /\ same (plug t fs) t' /\ exists h', rb t' h'.
Proof.
  induction fs as [|f fs IH]; intros p t h path fuel Hfu Hz Ht Hc Hp Hlen.
  - destruct (red t) eqn:Et.
    { destruct (rb_del_loop_red fuel [] p t (S h) path) as (p' & t' & H); [cbn in *; lia|done..|].
      exists p', t', false. naive_solver. }
    destruct fuel as [|fuel]; [lia|]. cbn [length Nat.add rb_del_loop Nat.eqb Nat.sub].
    cbn in Hp. destruct Hp as [Hp _].
    rewrite (path_idx_Some _ _ _ Hp), (path_dir_Some _ _ _ Hp). bind. cbn [fst snd].
    pose proof (zr_zero _ _ [] Hz) as Hn.
    assert (R : p !! 0 = Some (Nd 0 (rid t) 0 false false)) by exact (zr_read_fr _ _ _ _ Hz).
    rewrite !(get_next_Some _ _ _ _ R). bind. cbn [negb next nl nr].
    rewrite (get_red p t Hn (proj1 Hz)), Et. bind.
    rewrite (get_b1_Some _ _ _ R). bind. cbn [b1].
    bind. unfold rb_del_brother. rewrite !(get_next_Some _ _ _ _ R). bind. cbn [next nl nr].
    rewrite (get_red p t Hn (proj1 Hz)), Et. bind. rewrite (get_b1_Some _ _ _ R). bind.
    cbn [b1 orb].
    rewrite (upd_Some _ _ _ _ R). bind.
    destruct fuel as [|fuel]; [cbn in Hfu; lia|].
    eexists _, t, true. split; [done|]. split; [apply insert_length|].
    split; [|split; [done|by exists h]].
    destruct Hz as (Hz1 & Hz2 & Hz3). cbn [app] in *.
    assert (0 ∉ ids t).
    { intros Hi. cbn in Hz3. apply NoDup_app in Hz3 as (_ & Hz3 & _). apply (Hz3 0 Hi). left. }
    split; [by apply rep_ins|]. split; [|done]. cbn. split; [|done].
    by erewrite ins_eq by done.
  - destruct (red t) eqn:Et.
    { destruct (rb_del_loop_red fuel (f :: fs) p t (S h) path) as (p' & t' & H); [cbn in *; lia|done..|].
      exists p', t', false. naive_solver. }
    destruct fuel as [|fuel]; [lia|]. cbn [rb_del_loop length].
    destruct (Nat.eqb_spec (S (length fs) + 1) 0) as [|_]; [lia|].
    replace (S (length fs) + 1 - 1) with (length fs + 1) by lia.
    replace (S (length fs) + 1) with (length fs + 2) by lia.
    cbn [app path_ok] in Hp. destruct Hp as [Hpf Hp]. rewrite app_length in Hpf. cbn [length] in Hpf.
    rewrite (path_idx_Some _ _ _ Hpf), (path_dir_Some _ _ _ Hpf). bind. cbn [fst snd].
    pose proof (zr_zero _ _ (f :: fs) Hz) as Hn. cbn [app] in Hz.
    pose proof (zr_read_fr _ _ _ _ Hz) as R.
    rewrite !(get_next_Some _ _ _ _ R). bind. rewrite next_fcell, next_fcell_neg.
    rewrite (get_red p t Hn (proj1 Hz)), Et. bind.
    destruct f as [pi pk px y d sib]. cbn [fid fk fx fy fd fsib] in *.
    cbn [rbctx fsib fy] in Hc. destruct Hc as [Hsib Hc].
    assert (Rs : rep p sib) by (destruct Hz as (_ & (_ & Hz & _) & _); done).
    rewrite (get_red p sib Hn Rs). bind.
    destruct sib as [|bi bk bx by_ bl br]; [done|]. cbn [red rid].
    rewrite (Node_ND d) in Hz.
    set (bn := if d then br else bl) in *. set (bo := if d then bl else br) in *.
    assert (Hsib' : rb (ND d bi bk bx by_ bn bo) (S h)).
    { unfold bn, bo. by rewrite <- Node_ND. }
    rewrite rb_ND in Hsib'.
    destruct by_.
    + (* red brother *)
      destruct y; [by destruct Hc as [Hc _]|].
      destruct Hsib' as (Hbn & Hbo & Rbn & Rbo).
      assert (Ebn : (if d then br else bl) = bn) by done. assert (Ebo : (if d then bl else br) = bo) by done.
      clearbody bn bo.
      pose proof (proj2 (zr_down _ _ _ _ _ _ _ _ _) Hz) as Hz1.
      rewrite <- (ND_neg d pi) in Hz1. pose proof (proj1 (zr_down _ _ _ _ _ _ _ _ _) Hz1) as Hz2.
      destruct (zr_paint _ _ _ _ _ _ _ _ _ false Hz2) as (p1 & E1 & L1 & Hz3). rewrite E1. bind.
      pose proof (proj2 (zr_down _ _ _ _ _ _ _ _ _) Hz3) as Hz4.
      destruct (zr_paint _ _ _ _ _ _ _ _ _ true Hz4) as (p2 & E2 & L2 & Hz5). rewrite E2. bind.
      rewrite <- (ND_neg d bi) in Hz5.
      destruct (first_frame _ _ Hp) as (F & FS & EF & Hpf1). rewrite EF in Hz5.
      replace (length fs + 1) with (S (length fs)) in * by lia.
      destruct (rotate_ok _ path (length fs) _ _ _ _ _ _ _ _ _ _ _ _ _ _ Hz5) as (p3 & E3 & L3 & Hz6).
      { by rewrite (path_idx_Some _ _ _ Hpf). }
      { done. }
      rewrite E3. bind. rewrite <- EF in Hz6. rewrite !ND_neg in Hz6.
      pose proof (proj1 (zr_down _ _ _ _ _ _ _ _ _) Hz6) as Hz7.
      pose proof (proj1 (zr_down _ _ _ _ _ _ _ _ _) Hz7) as Hz8.
      rewrite (upd_Some _ _ _ _ Hpf). bind. cbn [set_idx snd].
      set (path1 := <[S (length fs) := _]> path).
      destruct (lookup_lt_is_Some_2 path1 (length fs + 2)) as [e He].
      { unfold path1. rewrite insert_length. cbn in Hlen. lia. }
      rewrite (upd_Some _ _ _ _ He). bind.
      set (path2 := <[length fs + 2 := _]> path1).
      assert (He2 : path2 !! (length fs + 2) = Some (set_dir d e)) by (unfold path2; by erewrite ins_eq).
      rewrite (upd_Some _ _ _ _ He2). bind. cbn [set_idx set_dir snd].
      set (path3 := <[length fs + 2 := _]> path2).
      assert (He3 : path3 !! (length fs + 2) = Some (pi, d)) by (unfold path3; by erewrite ins_eq).
      assert (Hl3 : length path3 = length path) by (unfold path3, path2, path1; by rewrite !insert_length).
      pose proof (zr_read_fr _ _ _ _ Hz8) as R8. cbn [fid] in R8.
      rewrite (get_next_Some _ _ _ _ R8). bind.
      assert (Eb : next (fcell (Fr pi pk px true d bn) (rid t)) (negb d) = rid bn) by (by destruct d).
      rewrite Eb.
      assert (exists ni nk nx n1 n2, bn = ND d ni nk nx false n1 n2 /\ rb n1 h /\ rb n2 h)
        as (ni & nk & nx & n1 & n2 & -> & Hn1 & Hn2).
      { destruct bn as [|ni nk nx ny nl nr]; [done|]. cbn in Rbn. subst ny.
        rewrite (Node_ND d). eexists _, _, _, _, _. split; [done|]. cbn in Hbn. destruct d; naive_solver. }
      rewrite rid_ND.
      assert (Hp3 : path_ok path3 (Fr bi bk bx false d bo :: fs ++ [S0])).
      { cbn [path_ok fid fd]. rewrite app_length. cbn [length]. split.
        - unfold path3, path2. rewrite !list_lookup_insert_ne by lia. unfold path1.
          replace (length fs + 1) with (S (length fs)) by lia. by erewrite ins_eq.
        - unfold path3, path2, path1. do 3 (apply path_ok_ins; [rewrite app_length; cbn; lia|]). done. }
      destruct (rb_del_brother_ok p3 path3 pi pk px true d ni nk nx n1 n2 t (Fr bi bk bx false d bo :: fs) h)
        as (p4 & brk & E4 & L4 & H4); try done.
      { cbn [length]. by replace (S (length fs) + 1) with (length fs + 2) by lia. }
      { cbn [length] in *. lia. }
      cbn [length] in E4. replace (S (length fs) + 2) with (S (length fs + 2)) in E4 by lia.
      rewrite E4. bind. destruct brk.
      * destruct H4 as (t' & Hz9 & Hs & Hr & Hb).
        exists p4, (plug t' (Fr bi bk bx false d bo :: fs)), false. split; [done|]. split; [congruence|].
        split; [by apply (zr_plug _ _ (_ :: fs))|]. split.
        { eapply same_trans; [|by apply same_plug, Hs].
          cbn [plug]. apply same_plug. unfold plug1. cbn [fid fk fx fy fd fsib].
          rewrite (Node_ND d bi), Ebn, Ebo.
          destruct d; same_solve. }
        destruct (rb_plug (Fr bi bk bx false d bo :: fs) t' (S h)) as (h' & Hh & _); [by cbn|done|done|eauto].
      * destruct H4 as (Rn1 & Rn2 & Hz9).
        replace (S (length fs + 2) - 1) with (length (Fr bi bk bx false d bo :: fs) + 1) by (cbn; lia).
        pose proof (proj2 (zr_down _ _ _ _ _ _ _ _ _) Hz9) as Hz10.
        destruct (rb_del_loop_red fuel (Fr bi bk bx false d bo :: fs) p4 _ (S h) path3 ltac:(cbn in *; lia) Hz10)
          as (p5 & t' & E5 & L5 & Hz11 & Hs & Hh).
        { apply red_ND. }
        { rewrite blk_ND. apply rb_ND. split; [done|]. apply rb_ND. done. }
        { by cbn. }
        { done. }
        exists p5, t', false. split; [done|]. split; [congruence|]. split; [done|]. split; [|done].
        eapply same_trans; [|exact Hs]. cbn [plug]. apply same_plug. unfold plug1. cbn [fid fk fx fy fd fsib].
        rewrite (Node_ND d bi), Ebn, Ebo. destruct d; same_solve.
    + (* black brother *)
      destruct Hsib' as [Hbn Hbo]. bind.
      destruct (rb_del_brother_ok p path pi pk px y d bi bk bx bn bo t fs h)
        as (p4 & brk & E4 & L4 & H4); try done.
      { cbn in Hlen. lia. }
      rewrite E4. bind. destruct brk.
      * destruct H4 as (t' & Hz9 & Hs & Hr & Hb).
        exists p4, (plug t' fs), false. split; [done|]. split; [done|].
        split; [by apply zr_plug|]. split.
        { cbn [plug]. apply same_plug. eapply same_trans; [|exact Hs]. unfold plug1.
          cbn [fid fk fx fy fd fsib]. rewrite (Node_ND d bi). fold bn bo. done. }
        assert (Hc' : rbctx fs (if y then S h else S (S h))) by (destruct y; naive_solver).
        destruct (rb_plug fs t' (if y then S h else S (S h))) as (h' & Hh & _); [done|done| |eauto].
        destruct y; [|by rewrite Hr]. destruct Hc as (_ & Hc & _). destruct fs as [|g fs]; [done|].
        cbn. congruence.
      * destruct H4 as (Rn1 & Rn2 & Hz9).
        replace (length fs + 2 - 1) with (length fs + 1) by lia.
        pose proof (proj2 (zr_down _ _ _ _ _ _ _ _ _) Hz9) as Hz10.
        destruct (IH p4 _ (if y then h else S h) path fuel ltac:(cbn in *; lia) Hz10)
          as (p5 & t' & b & E5 & L5 & Hz11 & Hs & Hh).
        { rewrite red_ND. destruct y.
          - rewrite blk_ND, rb_ND. split; [done|]. apply rb_ND. done.
          - rewrite rb_ND. split; [done|]. apply rb_ND. done. }
        { destruct y; naive_solver. }
        { done. }
        { cbn in Hlen. lia. }
        exists p5, t', b. split; [done|]. split; [congruence|]. split; [done|]. split; [|done].
        eapply same_trans; [|exact Hs]. cbn [plug]. apply same_plug. unfold plug1.
        cbn [fid fk fx fy fd fsib]. rewrite (Node_ND d bi). fold bn bo. destruct d; same_solve.
Qed.

Lemma whole_black0 p t b : zr p t [Sb b] ->
  exists p', upd p 0 (set_b1 false) = Some p' /\ length p' = length p /\ whole p' t.
Proof.
  intros (H1 & H2 & H3). pose proof H2 as H2'. cbn in H2. destruct H2 as (H2 & _).
  eexists. split; [by apply upd_Some|]. split; [apply insert_length|].
  assert (0 ∉ ids t).
  { intros Hi. cbn in H3. apply NoDup_app in H3 as (_ & H3 & _). apply (H3 0 Hi). left. }
  split; [by apply rep_ins|]. split; [|done]. cbn. split; [|done]. by erewrite ins_eq by done.
Qed.

Lemma rb_rebalance_del_ok fs p path di dk dx dy l r t nd :
  zr p t (fs ++ [S0]) -> (l = Leaf /\ t = r \/ r = Leaf /\ t = l) ->
  rbInv (plug (Node di dk dx dy l r) fs) ->
  path_ok path (fs ++ [S0]) -> path_idx path (length fs + 1) = Some di ->
  p !! di = Some nd -> b1 nd = dy -> length path = PATH -> length fs + 3 <= PATH ->
  exists p' t', rb_rebalance_del p path (length fs + 1) = Some p' /\ length p' = length p /\
    whole p' t' /\ same (plug t fs) t' /\ rbInv t'.
Proof.
  intros Hz Hlr [[h' Hi] Hr] Hp Hpi Hd Hdy Hl Hlen. unfold rb_rebalance_del. rewrite Hpi. bind.
  rewrite (get_b1_Some _ _ _ Hd), Hdy. bind.
  destruct (rb_unplug _ _ _ Hi (fun _ => Hr)) as (h & Hc & Hh & Hpr). cbn in Hh, Hpr.
  assert (exists p2 t2 b, (if negb dy then rb_del_loop (2 * PATH) p path (length fs + 1) else Some p) = Some p2 /\
    length p2 = length p /\ zr p2 t2 [Sb b] /\ same (plug t fs) t2 /\ exists h', rb t2 h')
    as (p2 & t2 & b & E2 & L2 & Hz2 & Hs2 & h2 & Hh2).
  { destruct dy; cbn [negb].
    - assert (t = Leaf /\ h = 0) as [-> ->].
      { destruct Hh as (Hl1 & Hr1 & Rl & Rr).
        destruct Hlr as [[-> ->]|[-> ->]]; cbn in Hl1, Hr1; subst h.
        - destruct r as [|? ? ? [] ? ?]; naive_solver.
        - destruct l as [|? ? ? [] ? ?]; naive_solver. }
      exists p, (plug Leaf fs), false. split; [done|]. split; [done|]. split; [by apply zr_plug|].
      split; [done|]. destruct (rb_plug fs Leaf 0) as (h2 & Hh2 & _); [done|done|done|eauto].
    - destruct h as [|h]; [done|].
      assert (Ht : rb t h) by naive_solver.
      apply (rb_del_loop_ok fs p t h path (2 * PATH)); try done.
      + unfold PATH in *. lia.
      + destruct (red t) eqn:Et; [|done]. destruct t as [|? ? ? y ? ?]; [done|]. cbn in Et. subst y.
        cbn in Ht |- *. naive_solver.
      + lia. }
  rewrite E2. bind.
  destruct (whole_black0 _ _ _ Hz2) as (p3 & E3 & L3 & Hw3). rewrite E3. bind.
  assert (R0 : p3 !! 0 = Some (fcell S0 (rid t2))) by (by apply zr_read_fr in Hw3).
  rewrite (get_next_Some _ _ _ false R0). bind. cbn [fcell S0 fd next nl].
  destruct (upd_root _ _ false Hw3) as (p4 & E4 & L4 & Hw4).
  pose proof (rb_black_root _ _ Hh2) as Hi3.
  destruct t2 as [|i2 k2 x2 y2 l2 r2].
  - exists p4, Leaf. split; [done|]. split; [congruence|].
    split; [|split; [done|split; [by exists 0|done]]].
    cbn [rid] in E4, R0. rewrite (upd_Some _ _ _ _ R0) in E4. inversion E4. subst p4.
    split; [done|]. split; [|by destruct Hw3 as (_ & _ & ?)]. cbn. split; [|done]. by erewrite ins_eq by done.
  - eexists p4, _. split; [exact E4|]. split; [congruence|]. split; [exact Hw4|]. split; [|done].
    eapply same_trans; [exact Hs2|done].
Qed.

(** *** Height *)
Lemma rb_height t h : rb t h ->
  exists m, ht t <= h + m /\ m <= h + (if red t then 1 else 0) /\
    (2 ^ Z.of_nat h + 2 ^ Z.of_nat m <= Z.of_nat (sz t) + 2)%Z.
Proof.
  revert h. induction t as [|i k x y l IHl r IHr]; intros h; cbn [rb ht sz red].
  - intros ->. exists 0. cbn. lia.
  - assert (Hm : forall a b c : nat, (2 ^ Z.of_nat c = 2 * 2 ^ Z.of_nat (c - 1))%Z \/ c = 0).
    { intros _ _ c. destruct c as [|c]; [by right|]. left. rewrite <- Z.pow_succ_r by lia. f_equal. lia. }
    assert (Hmon : forall a b : nat, a <= b -> (2 ^ Z.of_nat a <= 2 ^ Z.of_nat b)%Z)
      by (intros; apply Z.pow_le_mono_r; lia).
    assert (Hpos : forall a : nat, (0 < 2 ^ Z.of_nat a)%Z) by (intros; apply Z.pow_pos_nonneg; lia).
    assert (Hsucc : forall a : nat, (2 ^ Z.of_nat (S a) = 2 * 2 ^ Z.of_nat a)%Z).
    { intros a. rewrite <- Z.pow_succ_r by lia. f_equal. lia. }
    destruct y.
    + intros (Hl & Hr & Rl & Rr).
      destruct (IHl h Hl) as (m1 & A1 & B1 & C1). destruct (IHr h Hr) as (m2 & A2 & B2 & C2).
      rewrite Rl in B1. rewrite Rr in B2.
      exists (S (m1 `max` m2)). split; [lia|]. split; [lia|].
      rewrite Hsucc.
      assert (m1 `max` m2 = m1 \/ m1 `max` m2 = m2) as [E|E] by lia; rewrite E.
      * pose proof (Hmon m1 h ltac:(lia)). pose proof (Hmon 0 m2 ltac:(lia)). change (2 ^ Z.of_nat 0)%Z with 1%Z in *. lia.
      * pose proof (Hmon m2 h ltac:(lia)). pose proof (Hmon 0 m1 ltac:(lia)). change (2 ^ Z.of_nat 0)%Z with 1%Z in *. lia.
    + destruct h as [|h]; [done|]. intros (Hl & Hr).
      destruct (IHl h Hl) as (m1 & A1 & B1 & C1). destruct (IHr h Hr) as (m2 & A2 & B2 & C2).
      exists (m1 `max` m2). split; [lia|]. split; [destruct (red l), (red r); lia|].
      rewrite Hsucc.
      assert (m1 `max` m2 = m1 \/ m1 `max` m2 = m2) as [E|E] by lia; rewrite E.
      * pose proof (Hmon 0 m2 ltac:(lia)). change (2 ^ Z.of_nat 0)%Z with 1%Z in *. lia.
      * pose proof (Hmon 0 m1 ltac:(lia)). change (2 ^ Z.of_nat 0)%Z with 1%Z in *. lia.
Qed.

Lemma rbInv_height t : rbInv t -> (Z.of_nat (sz t) < 2 ^ 31)%Z -> ht t <= 60.
Proof.
  intros [[h H] Hr] Hs. destruct (rb_height _ _ H) as (m & A & B & C). rewrite Hr in B.
  assert (Hpos : forall a : nat, (0 < 2 ^ Z.of_nat a)%Z) by (intros; apply Z.pow_pos_nonneg; lia).
  assert (Hmon : forall a b : nat, a <= b -> (2 ^ Z.of_nat a <= 2 ^ Z.of_nat b)%Z)
      by (intros; apply Z.pow_le_mono_r; lia).
  pose proof (Hpos m). pose proof (Hpos h).
  destruct (decide (31 <= h)) as [Hh|Hh]; [|lia].
  destruct (decide (32 <= h)) as [Hh2|Hh2].
  { pose proof (Hmon 32 h Hh2). change (2 ^ Z.of_nat 32)%Z with 4294967296%Z in *. lia. }
  assert (h = 31) by lia. subst h. change (2 ^ Z.of_nat 31)%Z with (2 ^ 31)%Z in *.
  destruct (decide (1 <= m)) as [Hm|Hm]; [|lia].
  pose proof (Hmon 1 m Hm). change (2 ^ Z.of_nat 1)%Z with 2%Z in *. lia.
Qed.
