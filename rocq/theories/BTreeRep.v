(** Proof layer: labelled trees and zippers represented in a pool of nodes. *)
From stdpp Require Import sets.
From Verif Require Import Base BTree.

Inductive bt := Leaf | Node (id : nat) (k : N) (x y : bool) (l r : bt).

Definition rid (t : bt) : nat := match t with Leaf => 0 | Node i _ _ _ _ _ => i end.
Fixpoint ids (t : bt) : list nat :=
  match t with Leaf => [] | Node i _ _ _ l r => ids l ++ i :: ids r end.
Fixpoint inorder (t : bt) : list N :=
  match t with Leaf => [] | Node _ k _ _ l r => inorder l ++ k :: inorder r end.
(** Slots with their keys, in order. *)
Fixpoint inord (t : bt) : list (nat * N) :=
  match t with Leaf => [] | Node i k _ _ l r => inord l ++ (i, k) :: inord r end.
Fixpoint ht (t : bt) : nat :=
  match t with Leaf => 0 | Node _ _ _ _ l r => S (ht l `max` ht r) end.
Fixpoint sz (t : bt) : nat :=
  match t with Leaf => 0 | Node _ _ _ _ l r => S (sz l + sz r) end.
(** Shape and flags only. *)
Fixpoint erase (t : bt) : bt :=
  match t with Leaf => Leaf | Node _ _ x y l r => Node 0 0 x y (erase l) (erase r) end.

(** Node with child [a] in direction [d] and [b] on the other side. *)
Definition ND (d : bool) (i : nat) (k : N) (x y : bool) (a b : bt) : bt :=
  if d then Node i k x y b a else Node i k x y a b.

Record frame := Fr { fid : nat; fk : N; fx : bool; fy : bool; fd : bool; fsib : bt }.
Definition S0 : frame := Fr 0 0 false false false Leaf.

Definition plug1 (t : bt) (f : frame) : bt := ND (fd f) (fid f) (fk f) (fx f) (fy f) t (fsib f).
Fixpoint plug (t : bt) (fs : list frame) : bt :=
  match fs with [] => t | f :: fs => plug (plug1 t f) fs end.
Fixpoint fids (fs : list frame) : list nat :=
  match fs with [] => [] | f :: fs => fid f :: ids (fsib f) ++ fids fs end.

Fixpoint rep (p : list node) (t : bt) : Prop :=
  match t with
  | Leaf => True
  | Node i k x y l r => p !! i = Some (Nd k (rid l) (rid r) x y) /\ rep p l /\ rep p r
  end.
Definition fcell (f : frame) (i : nat) : node :=
  if fd f then Nd (fk f) (rid (fsib f)) i (fx f) (fy f)
  else Nd (fk f) i (rid (fsib f)) (fx f) (fy f).
Fixpoint repf (p : list node) (i : nat) (fs : list frame) : Prop :=
  match fs with
  | [] => True
  | f :: fs => p !! fid f = Some (fcell f i) /\ rep p (fsib f) /\ repf p (fid f) fs
  end.

Definition zr (p : list node) (t : bt) (fs : list frame) : Prop :=
  rep p t /\ repf p (rid t) fs /\ NoDup (ids t ++ fids fs).

Fixpoint path_ok (path : path_t) (fs : list frame) : Prop :=
  match fs with
  | [] => True
  | f :: fs => path !! length fs = Some (fid f, fd f) /\ path_ok path fs
  end.

(** *** Frame rule *)
Lemma rep_ins p i n t : i ∉ ids t -> rep p t -> rep (<[i := n]> p) t.
Proof.
  induction t as [|j k x y l IHl r IHr]; cbn; [done|].
  rewrite elem_of_app, elem_of_cons. intros Hi (H1 & H2 & H3).
  split; [rewrite list_lookup_insert_ne; [done|naive_solver]|].
  split; [apply IHl; [naive_solver|done]|apply IHr; [naive_solver|done]].
Qed.
Lemma repf_ins p i n j fs : i ∉ fids fs -> repf p j fs -> repf (<[i := n]> p) j fs.
Proof.
  revert j. induction fs as [|f fs IH]; intros j; cbn; [done|].
  rewrite elem_of_cons, elem_of_app. intros Hi (H1 & H2 & H3).
  split; [rewrite list_lookup_insert_ne; [done|naive_solver]|].
  split; [apply rep_ins; [naive_solver|done]|apply IH; [naive_solver|done]].
Qed.
Lemma rep_agree p p' t : (forall i, i ∈ ids t -> p' !! i = p !! i) -> rep p t -> rep p' t.
Proof.
  induction t as [|j k x y l IHl r IHr]; cbn; [done|]. intros Hi (H1 & H2 & H3).
  split; [rewrite Hi; [done|set_solver]|].
  split; [apply IHl; [set_solver|done]|apply IHr; [set_solver|done]].
Qed.

Lemma ids_ND d i k x y a b : ids (ND d i k x y a b) ≡ₚ i :: ids a ++ ids b.
Proof. destruct d; cbn; solve_Permutation. Qed.
Lemma rid_ND d i k x y a b : rid (ND d i k x y a b) = i.
Proof. by destruct d. Qed.
Lemma rep_ND p d i k x y a b :
  rep p (ND d i k x y a b) <->
  p !! i = Some (fcell (Fr i k x y d b) (rid a)) /\ rep p a /\ rep p b.
Proof. destruct d; cbn; naive_solver. Qed.

Lemma zr_down p d i k x y a b fs :
  zr p (ND d i k x y a b) fs <-> zr p a (Fr i k x y d b :: fs).
Proof.
  unfold zr. rewrite rep_ND, rid_ND. cbn [repf fsib fid fids].
  assert (Hp : ids (ND d i k x y a b) ++ fids fs ≡ₚ ids a ++ i :: ids b ++ fids fs)
    by (rewrite ids_ND; solve_Permutation).
  rewrite Hp. naive_solver.
Qed.

Lemma zr_dn p d i k x y a b fs :
  zr p (ND d i k x y a b) fs -> zr p a (Fr i k x y d b :: fs).
Proof. apply zr_down. Qed.
Lemma zr_up p d i k x y a b fs :
  zr p a (Fr i k x y d b :: fs) -> zr p (ND d i k x y a b) fs.
Proof. apply zr_down. Qed.

Lemma zr_plug1 p t f fs : zr p t (f :: fs) <-> zr p (plug1 t f) fs.
Proof. destruct f. unfold plug1. cbn. symmetry. apply zr_down. Qed.

Lemma zr_plug p t fs F : zr p t (fs ++ F) <-> zr p (plug t fs) F.
Proof.
  revert t. induction fs as [|f fs IH]; intros t; cbn [plug app]; [done|].
  rewrite zr_plug1. apply IH.
Qed.

Lemma ids_plug t fs : ids (plug t fs) ≡ₚ ids t ++ fids fs.
Proof.
  revert t. induction fs as [|f fs IH]; intros t; cbn [plug fids]; [by rewrite app_nil_r|].
  rewrite IH. unfold plug1. rewrite ids_ND. solve_Permutation.
Qed.

(** Reads. *)
Lemma zr_read p i k x y l r fs : zr p (Node i k x y l r) fs -> p !! i = Some (Nd k (rid l) (rid r) x y).
Proof. by intros ((H & _) & _). Qed.
Lemma zr_read_ND p d i k x y a b fs :
  zr p (ND d i k x y a b) fs -> p !! i = Some (fcell (Fr i k x y d b) (rid a)).
Proof. intros (H & _). by apply rep_ND in H as [? _]. Qed.
Lemma zr_read_fr p t f fs : zr p t (f :: fs) -> p !! fid f = Some (fcell f (rid t)).
Proof. by intros (_ & (H & _) & _). Qed.
Lemma next_fcell f i : next (fcell f i) (fd f) = i.
Proof. unfold next, fcell. by destruct (fd f). Qed.
Lemma next_fcell_neg f i : next (fcell f i) (negb (fd f)) = rid (fsib f).
Proof. unfold next, fcell. by destruct (fd f). Qed.
Lemma b1_fcell f i : b1 (fcell f i) = fy f.
Proof. unfold fcell. by destruct (fd f). Qed.
Lemma b0_fcell f i : b0 (fcell f i) = fx f.
Proof. unfold fcell. by destruct (fd f). Qed.

Lemma upd_Some {A} (p : list A) i n f : p !! i = Some n -> upd p i f = Some (<[i := f n]> p).
Proof.
  intros H. unfold upd, rd. rewrite H. cbn [mbind option_bind]. apply wr_Some. by eapply lookup_lt_Some.
Qed.
Lemma ins_eq {A} (p : list A) i n m : p !! i = Some n -> <[i := m]> p !! i = Some m.
Proof. intros H. apply list_lookup_insert. by eapply lookup_lt_Some. Qed.

Lemma zr_nodup_root p d i k x y a b fs :
  zr p (ND d i k x y a b) fs -> i ∉ ids a /\ i ∉ ids b /\ i ∉ fids fs.
Proof. intros (_ & _ & H). rewrite ids_ND in H. cbn in H. apply NoDup_cons in H as [H _]. set_solver. Qed.

(** Change of the root node of the focus, children kept. *)
Lemma zr_set p d i k x y a b fs g k' x' y' :
  zr p (ND d i k x y a b) fs ->
  g (fcell (Fr i k x y d b) (rid a)) = fcell (Fr i k' x' y' d b) (rid a) ->
  exists p', upd p i g = Some p' /\ length p' = length p /\ zr p' (ND d i k' x' y' a b) fs /\
    (forall j, j ∉ ids (ND d i k x y a b) -> j ∉ fids fs -> p' !! j = p !! j).
Proof.
  intros H Hg. pose proof (zr_nodup_root _ _ _ _ _ _ _ _ _ H) as (Ha & Hb & Hf).
  pose proof (zr_read_ND _ _ _ _ _ _ _ _ _ H) as Hr.
  eexists. split; [by apply upd_Some|]. split; [apply insert_length|].
  destruct H as (H1 & H2 & H3). rewrite rid_ND in H2. apply rep_ND in H1 as (H11 & H12 & H13).
  split.
  - split; [|split].
    + apply rep_ND. split; [rewrite Hg; by eapply ins_eq|]. split; by apply rep_ins.
    + rewrite rid_ND. by apply repf_ins.
    + rewrite ids_ND in *. done.
  - intros j Hj _. apply list_lookup_insert_ne. rewrite ids_ND in Hj. set_solver.
Qed.

(** Detached replacement of the focus: the parent's link is overwritten. *)
Lemma zr_link p t f fs t' :
  repf p (rid t) (f :: fs) -> rep p t' ->
  NoDup (ids t' ++ fids (f :: fs)) ->
  exists p', upd p (fid f) (set_next (fd f) (rid t')) = Some p' /\ length p' = length p /\
    zr p' t' (f :: fs) /\ p' = <[fid f := fcell f (rid t')]> p.
Proof.
  intros H2 H1 H3. cbn [repf] in H2. destruct H2 as (Hc & Hs & Hf).
  eexists. split; [by apply upd_Some|]. split; [apply insert_length|].
  assert (Hg : set_next (fd f) (rid t') (fcell f (rid t)) = fcell f (rid t')).
  { unfold set_next, fcell. by destruct (fd f). }
  rewrite Hg. split; [|done].
  assert (fid f ∉ ids t' /\ fid f ∉ ids (fsib f) /\ fid f ∉ fids fs) as (N1 & N2 & N3).
  { cbn [fids] in H3. rewrite Permutation_app_comm in H3. cbn in H3.
    apply NoDup_cons in H3 as [H3 _]. set_solver. }
  split; [by apply rep_ins|]. split; [|done]. cbn [repf].
  split; [by eapply ins_eq|]. split; [by apply rep_ins|by apply repf_ins].
Qed.

Lemma get_next_Some p i n d : p !! i = Some n -> get_next p i d = Some (next n d).
Proof. intros H. unfold get_next, rd. by rewrite H. Qed.
Lemma get_b1_Some p i n : p !! i = Some n -> get_b1 p i = Some (b1 n).
Proof. intros H. unfold get_b1, rd. by rewrite H. Qed.
Lemma get_b0_Some p i n : p !! i = Some n -> get_b0 p i = Some (b0 n).
Proof. intros H. unfold get_b0, rd. by rewrite H. Qed.
Lemma path_idx_Some path i e : path !! i = Some e -> path_idx path i = Some e.1.
Proof. intros H. unfold path_idx, rd. by rewrite H. Qed.
Lemma path_dir_Some path i e : path !! i = Some e -> path_dir path i = Some e.2.
Proof. intros H. unfold path_dir, rd. by rewrite H. Qed.

(** *** Rotations *)
Lemma rotate_ok p path k1 d n kn xn yn c kc xc yc co ci o f fs :
  zr p (ND d n kn xn yn (ND d c kc xc yc co ci) o) (f :: fs) ->
  path_idx path (S k1) = Some n -> path !! k1 = Some (fid f, fd f) ->
  exists p', rotate p path (S k1) d = Some p' /\ length p' = length p /\
    zr p' (ND d c kc xc yc co (ND (negb d) n kn xn yn o ci)) (f :: fs).
Proof.
  intros H Hn Hp. unfold rotate. rewrite Hn. cbn [mbind option_bind].
  pose proof (zr_read_ND _ _ _ _ _ _ _ _ _ H) as Rn.
  pose proof (proj1 (zr_down _ _ _ _ _ _ _ _ _) H) as H'. pose proof (zr_read_ND _ _ _ _ _ _ _ _ _ H') as Rc.
  rewrite rid_ND in Rn.
  rewrite (get_next_Some _ _ _ _ Rn). cbn [mbind option_bind].
  assert (E1 : next (fcell (Fr n kn xn yn d o) c) d = c) by (by destruct d).
  rewrite E1, (get_next_Some _ _ _ _ Rc). cbn [mbind option_bind].
  assert (E2 : next (fcell (Fr c kc xc yc d ci) (rid co)) (negb d) = rid ci) by (by destruct d).
  rewrite E2, (upd_Some _ _ _ _ Rn). cbn [mbind option_bind].
  destruct H as (H1 & H2 & H3).
  apply rep_ND in H1 as (_ & H1 & Ho). apply rep_ND in H1 as (_ & Hco & Hci).
  rewrite rid_ND in H2.
  assert (ND3 : NoDup (n :: c :: ids co ++ ids ci ++ ids o ++ fids (f :: fs))).
  { rewrite ids_ND, ids_ND in H3. eapply NoDup_Permutation_proper; [|exact H3]. solve_Permutation. }
  assert (Hnc : n <> c) by (inversion ND3; set_solver).
  assert (Rc' : <[n := set_next d (rid ci) (fcell (Fr n kn xn yn d o) c)]> p !! c
     = Some (fcell (Fr c kc xc yc d ci) (rid co))) by (by rewrite list_lookup_insert_ne).
  rewrite (upd_Some _ _ _ _ Rc'). cbn [mbind option_bind pred_idx].
  rewrite (path_idx_Some _ _ _ Hp), (path_dir_Some _ _ _ Hp). cbn [mbind option_bind fst snd].
  inversion ND3 as [|? ? Nn ND2]; subst. inversion ND2 as [|? ? Nc ND1]; subst.
  rewrite elem_of_cons, !elem_of_app in Nn. rewrite !elem_of_app in Nc.
  set (p2 := <[c := _]> _).
  destruct (zr_link p2 (ND d n kn xn yn (ND d c kc xc yc co ci) o) f fs
     (ND d c kc xc yc co (ND (negb d) n kn xn yn o ci))) as (p' & E & El & Hz & _).
  - rewrite rid_ND. apply repf_ins; [naive_solver|]. apply repf_ins; [naive_solver|done].
  - apply rep_ND. unfold p2. split; [|split].
    + rewrite list_lookup_insert; [by destruct d|]. rewrite insert_length. by eapply lookup_lt_Some.
    + apply rep_ins; [naive_solver|]. apply rep_ins; [naive_solver|done].
    + apply rep_ND. split; [|split].
      * rewrite list_lookup_insert_ne by done. erewrite ins_eq by done. by destruct d.
      * apply rep_ins; [naive_solver|]. apply rep_ins; [naive_solver|done].
      * apply rep_ins; [naive_solver|]. apply rep_ins; [naive_solver|done].
  - rewrite ids_ND, ids_ND. eapply NoDup_Permutation_proper; [|exact ND3]. solve_Permutation.
  - rewrite rid_ND in E. exists p'. split; [exact E|]. split; [|exact Hz].
    rewrite El. unfold p2. by rewrite !insert_length.
Qed.

Lemma ND_neg d i k x y a b : ND (negb d) i k x y a b = ND d i k x y b a.
Proof. by destruct d. Qed.

Lemma grand_rotate_ok p path k1 d n kn xn yn c kc xc yc g kg xg yg co gd gn o f fs :
  zr p (ND d n kn xn yn (ND d c kc xc yc co (ND d g kg xg yg gd gn)) o) (f :: fs) ->
  path_idx path (S k1) = Some n -> path !! k1 = Some (fid f, fd f) ->
  exists p', grand_rotate p path (S k1) d = Some p' /\ length p' = length p /\
    zr p' (ND d g kg xg yg (ND d c kc xc yc co gd) (ND d n kn xn yn gn o)) (f :: fs).
Proof.
  intros H Hn Hp. unfold grand_rotate. rewrite Hn. cbn [mbind option_bind].
  destruct H as (H1 & H2 & H3).
  apply rep_ND in H1 as (Rn & H1 & Ho). apply rep_ND in H1 as (Rc & Hco & H1).
  apply rep_ND in H1 as (Rg & Hgd & Hgn). rewrite rid_ND in H2, Rn.
  assert (ND4 : NoDup (n :: c :: g :: ids co ++ ids gd ++ ids gn ++ ids o ++ fids (f :: fs))).
  { rewrite ids_ND, ids_ND, ids_ND in H3. eapply NoDup_Permutation_proper; [|exact H3]. solve_Permutation. }
  pose proof ND4 as ND4'.
  apply NoDup_cons in ND4 as [Nn ND3]. apply NoDup_cons in ND3 as [Nc ND2].
  apply NoDup_cons in ND2 as [Ng ND1].
  rewrite !elem_of_cons, !elem_of_app in Nn. rewrite elem_of_cons, !elem_of_app in Nc.
  rewrite !elem_of_app in Ng.
  assert (Hnc : n <> c) by naive_solver. assert (Hng : n <> g) by naive_solver.
  assert (Hcg : c <> g) by naive_solver.
  rewrite (get_next_Some _ _ _ _ Rn). cbn [mbind option_bind].
  replace (next (fcell (Fr n kn xn yn d o) c) d) with c by (by destruct d).
  rewrite (get_next_Some _ _ _ _ Rc). cbn [mbind option_bind].
  replace (next (fcell _ _) (negb d)) with g by (by destruct d).
  rewrite (get_next_Some _ _ _ _ Rg). cbn [mbind option_bind].
  rewrite (upd_Some _ _ _ _ Rn). cbn [mbind option_bind].
  set (p1 := <[n := _]> p).
  assert (Rg1 : p1 !! g = Some (fcell (Fr g kg xg yg d gn) (rid gd)))
    by (unfold p1; by rewrite list_lookup_insert_ne).
  assert (Rc1 : p1 !! c = Some (fcell (Fr c kc xc yc d (ND d g kg xg yg gd gn)) (rid co)))
    by (unfold p1; by rewrite list_lookup_insert_ne).
  assert (Rn1 : p1 !! n = Some (fcell (Fr n kn xn yn d o) (rid gn))).
  { unfold p1. erewrite ins_eq by done. by destruct d. }
  rewrite (get_next_Some _ _ _ _ Rg1). cbn [mbind option_bind].
  rewrite (upd_Some _ _ _ _ Rc1). cbn [mbind option_bind].
  set (p2 := <[c := _]> p1).
  assert (Rg2 : p2 !! g = Some (fcell (Fr g kg xg yg d gn) (rid gd)))
    by (unfold p2; by rewrite list_lookup_insert_ne).
  assert (Rc2 : p2 !! c = Some (fcell (Fr c kc xc yc d gd) (rid co))).
  { unfold p2. erewrite ins_eq by done. by destruct d. }
  assert (Rn2 : p2 !! n = Some (fcell (Fr n kn xn yn d o) (rid gn)))
    by (unfold p2; by rewrite list_lookup_insert_ne).
  rewrite (upd_Some _ _ _ _ Rg2). cbn [mbind option_bind].
  set (p3 := <[g := _]> p2).
  assert (Rg3 : exists z, p3 !! g = Some z /\ set_next d c z = fcell (Fr g kg xg yg d (ND d n kn xn yn gn o)) c).
  { eexists. unfold p3. erewrite ins_eq by done. split; [done|]. by destruct d. }
  destruct Rg3 as (z & Rg3 & Ez).
  assert (Rc3 : p3 !! c = Some (fcell (Fr c kc xc yc d gd) (rid co)))
    by (unfold p3; by rewrite list_lookup_insert_ne).
  assert (Rn3 : p3 !! n = Some (fcell (Fr n kn xn yn d o) (rid gn)))
    by (unfold p3; by rewrite list_lookup_insert_ne).
  rewrite (upd_Some _ _ _ _ Rg3). cbn [mbind option_bind]. rewrite Ez.
  set (p4 := <[g := _]> p3).
  assert (Rg4 : p4 !! g = Some (fcell (Fr g kg xg yg d (ND d n kn xn yn gn o)) c)).
  { unfold p4. by erewrite ins_eq by done. }
  assert (Rc4 : p4 !! c = Some (fcell (Fr c kc xc yc d gd) (rid co)))
    by (unfold p4; by rewrite list_lookup_insert_ne).
  assert (Rn4 : p4 !! n = Some (fcell (Fr n kn xn yn d o) (rid gn)))
    by (unfold p4; by rewrite list_lookup_insert_ne).
  cbn [pred_idx mbind option_bind].
  rewrite (path_idx_Some _ _ _ Hp), (path_dir_Some _ _ _ Hp). cbn [mbind option_bind fst snd].
  assert (Hfr : forall t, (n ∉ ids t) -> c ∉ ids t -> g ∉ ids t -> rep p t -> rep p4 t).
  { intros t N1 N2 N3 Ht. unfold p4, p3, p2, p1. by repeat (apply rep_ins; [done|]). }
  destruct (zr_link p4 (Node n 0 false false Leaf Leaf) f fs
     (ND d g kg xg yg (ND d c kc xc yc co gd) (ND d n kn xn yn gn o))) as (p' & E & El & Hz & _).
  - cbn [rid]. unfold p4, p3, p2, p1. do 4 (apply repf_ins; [naive_solver|]). done.
  - apply rep_ND. rewrite rid_ND. split; [done|]. split.
    + apply rep_ND. split; [done|]. split; apply Hfr; naive_solver.
    + apply rep_ND. split; [done|]. split; apply Hfr; naive_solver.
  - rewrite ids_ND, ids_ND, ids_ND. eapply NoDup_Permutation_proper; [|exact ND4']. solve_Permutation.
  - rewrite rid_ND in E. exists p'. split; [exact E|]. split; [|exact Hz].
    rewrite El. unfold p4, p3, p2, p1. by rewrite !insert_length.
Qed.

(** *** Contents *)
Lemma inorder_ND d i k x y a b :
  inorder (ND d i k x y a b) = if d then inorder b ++ k :: inorder a else inorder a ++ k :: inorder b.
Proof. by destruct d. Qed.

Lemma inord_ND d i k x y a b :
  inord (ND d i k x y a b) = if d then inord b ++ (i, k) :: inord a else inord a ++ (i, k) :: inord b.
Proof. by destruct d. Qed.
Lemma inord_ids t : (inord t).*1 = ids t.
Proof. induction t as [|j k x y l IHl r IHr]; cbn; [done|]. rewrite fmap_app. cbn. by rewrite IHl, IHr. Qed.
Lemma inord_keys t : (inord t).*2 = inorder t.
Proof. induction t as [|j k x y l IHl r IHr]; cbn; [done|]. rewrite fmap_app. cbn. by rewrite IHl, IHr. Qed.
Lemma rep_inord p t i k : rep p t -> (i, k) ∈ inord t -> exists n, p !! i = Some n /\ nkey n = k.
Proof.
  induction t as [|j kk x y l IHl r IHr]; cbn; [set_solver|]. intros (H1 & H2 & H3).
  rewrite elem_of_app, elem_of_cons. intros [H|[H|H]]; [by apply IHl| |by apply IHr].
  inversion H. subst. eauto.
Qed.

Fixpoint cl (fs : list frame) : list N :=
  match fs with [] => [] | f :: fs => cl fs ++ (if fd f then inorder (fsib f) ++ [fk f] else []) end.
Fixpoint cr (fs : list frame) : list N :=
  match fs with [] => [] | f :: fs => (if fd f then [] else fk f :: inorder (fsib f)) ++ cr fs end.

Lemma inorder_plug t fs : inorder (plug t fs) = cl fs ++ inorder t ++ cr fs.
Proof.
  revert t. induction fs as [|f fs IH]; intros t; cbn [plug cl cr]; [by rewrite app_nil_r|].
  rewrite IH. unfold plug1. rewrite inorder_ND. destruct (fd f); by simplify_list_eq.
Qed.

Lemma inord_plug_eq t t' fs : inord t = inord t' -> inord (plug t fs) = inord (plug t' fs).
Proof.
  revert t t'. induction fs as [|f fs IH]; intros t t' H; cbn [plug]; [done|].
  apply IH. unfold plug1. rewrite !inord_ND, H. done.
Qed.

Lemma plug_app t fs gs : plug t (fs ++ gs) = plug (plug t fs) gs.
Proof. revert t. induction fs as [|f fs IH]; intros t; cbn; [done|]. apply IH. Qed.

Lemma path_ok_ins path fs i e : length fs <= i -> path_ok path fs -> path_ok (<[i := e]> path) fs.
Proof.
  induction fs as [|f fs IH]; cbn; [done|]. intros Hi [H1 H2]. split; [|apply IH; [lia|done]].
  rewrite list_lookup_insert_ne by lia. done.
Qed.
Lemma path_ok_app path fs gs : path_ok path (fs ++ gs) -> path_ok path gs.
Proof. induction fs as [|f fs IH]; cbn; [done|]. intros [_ H]. by apply IH. Qed.

Lemma rep_ids_lt p t i : rep p t -> i ∈ ids t -> i < length p.
Proof.
  induction t as [|j k x y l IHl r IHr]; cbn; [set_solver|].
  rewrite elem_of_app, elem_of_cons. intros (H1 & H2 & H3) [H|[->|H]]; [by apply IHl| |by apply IHr].
  by eapply lookup_lt_Some.
Qed.

(** The keys of a tree are read at its indices. *)
Lemma rep_keys p t : rep p t ->
  (fun i => from_option nkey 0%N (p !! i)) <$> ids t = inorder t.
Proof.
  induction t as [|j k x y l IHl r IHr]; cbn; [done|]. intros (H1 & H2 & H3).
  rewrite fmap_app. cbn. rewrite IHl, IHr, H1 by done. done.
Qed.

Lemma length_ids t : length (ids t) = sz t.
Proof. induction t as [|j k x y l IHl r IHr]; cbn; [done|]. rewrite app_length. cbn. lia. Qed.
Lemma length_inorder t : length (inorder t) = sz t.
Proof. induction t as [|j k x y l IHl r IHr]; cbn; [done|]. rewrite app_length. cbn. lia. Qed.

(** Whole tree below the root slot. *)
Definition whole (p : list node) (t : bt) : Prop := zr p t [S0].

Lemma whole_nz p t i : whole p t -> i ∈ ids t -> i <> 0.
Proof.
  intros (_ & _ & H) Hi ->. cbn in H. apply NoDup_app in H as (_ & H & _).
  apply (H 0); [done|]. left.
Qed.
Lemma rid_in t : t <> Leaf -> rid t ∈ ids t.
Proof. destruct t; [done|]. cbn. set_solver. Qed.
Lemma zr_rid_nz p t fs : zr p t (fs ++ [S0]) -> t <> Leaf -> rid t <> 0.
Proof.
  intros H Ht. apply zr_plug in H. eapply whole_nz; [done|]. rewrite ids_plug. apply elem_of_app. left.
  by apply rid_in.
Qed.
