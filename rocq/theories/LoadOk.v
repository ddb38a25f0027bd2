(** A tree that fits is loaded completely: one call of [load] (src/mr_load.c:849-924). *)
From Verif Require Import Base Load LoadSpec LoadSafe LoadInv LoadInv2 LoadPlace LoadRun LoadText LoadFits.
Local Open Scope Z_scope.

Lemma put_inv s a w s' : put s a w = Some s' ->
  s' = State (blocks s) (Store a w :: log s) (ra s) /\
  exists n, blocks s !! a.1 = Some (Some n) /\ 0 <= a.2 /\ a.2 + width w <= n.
Proof.
  unfold put. destruct (blocks s !! a.1) as [[n|]|]; [|done|done].
  destruct (Z.leb_spec 0 a.2); [|done]. destruct (Z.leb_spec (a.2 + width w) n); [|done]. cbn [andb]. intros [= <-].
  split; [done|]. by exists n.
Qed.

Lemma away_meets x a n : 8 <= n -> away x a n -> meets a x = false.
Proof.
  intros Hn H. unfold meets. unfold away in H.
  destruct (Nat.eqb_spec a.1 (st_at x).1); [|by rewrite andb_false_r].
  destruct (Z.ltb_spec a.2 ((st_at x).2 + width (st_what x))); [|by rewrite andb_false_r].
  destruct (Z.ltb_spec (st_at x).2 (a.2 + 8)); [|by rewrite andb_false_r]. lia.
Qed.

Lemma peek_away l1 l a n : 8 <= n -> Forall (fun x => away x a n) l1 -> peek (l1 ++ l) a = peek l a.
Proof.
  intros Hn. induction 1 as [|x l1 Hx HF IH]; [done|]. cbn [app]. by rewrite peek_cons, (away_meets _ _ n), IH.
Qed.

Lemma char_at_away l1 l a d n : 0 <= d < n -> Forall (fun x => away x a n) l1 -> char_at (l1 ++ l) (shift a d) = char_at l (shift a d).
Proof.
  intros Hd. induction 1 as [|[b w] l1 Hx HF IH]; [done|]. cbn [app]. destruct w as [p|t|j k]; [exact IH| |exact IH].
  rewrite <- IH. cbn [char_at]. unfold away in Hx. cbn in Hx. unfold shift. cbn.
  destruct (Nat.eqb_spec b.1 a.1); [|done]. destruct (Z.leb_spec b.2 (a.2 + d)); [|done].
  destruct (Z.ltb_spec (a.2 + d) (b.2 + Z.of_nat (length t))); [lia|done].
Qed.

Lemma char_at_block l1 l b i : Forall (fun x => (st_at x).1 <> b) l1 -> char_at (l1 ++ l) (b, i) = char_at l (b, i).
Proof.
  induction 1 as [|[c w] l1 Hx HF IH]; [done|]. cbn [app]. destruct w as [p|t|j k]; [exact IH| |exact IH].
  rewrite <- IH. cbn [char_at]. cbn in Hx. destruct (Nat.eqb_spec c.1 (b, i).1); [done|done].
Qed.

Section fits.
Context (env : list td) (leaf : node -> stype -> bool * bool) (alloc : nat -> bool).
Hypothesis Henv : env_ok env.
Hypothesis Hunion : union_free env.
Hypothesis Halloc : forall b, alloc b = true.
Context (ty : nat -> stype) (off : nat -> Z).
Notation tyn m := (ty (n_idx m)).
Notation offn m := (off (n_idx m)).
Notation fits := (fits env leaf ty off).

(** [m] is stored inside of [h], [o] bytes from its start. *)
Inductive inl : node -> node -> Z -> Prop :=
  | inl_self h : inl h h 0
  | inl_kid h k m o : s_kind (tyn h) = Struct \/ s_kind (tyn h) = Array -> k ∈ n_kids h -> inl k m o ->
      inl h m (offn k + o).

Lemma inl_sub h m o : inl h m o -> m ∈ subtree h.
Proof. induction 1 as [|h k m o _ Hk _ IH]; [apply subtree_self|exact (subtree_kid _ _ _ Hk IH)]. Qed.

Lemma kid_types nd : fits nd -> stype_ok env (tyn nd) -> s_kind (tyn nd) = Struct \/ s_kind (tyn nd) = Array ->
  (forall k, k ∈ n_kids nd -> sub env (tyn nd) (offn k) (tyn k)) /\
  (forall x y k k', n_kids nd !! x = Some k -> n_kids nd !! y = Some k' -> x <> y ->
     offn k + s_size (tyn k) <= offn k' \/ offn k' + s_size (tyn k') <= offn k \/
     (scalar_kind (s_kind (tyn k)) /\ scalar_kind (s_kind (tyn k')))).
Proof.
  intros F Ok Hk. unfold LoadFits.fits in F. destruct Hk as [E|E]; rewrite E in F.
  - destruct F as (d & is & Ed & Li & Nd & F). split.
    + intros k Hk. apply elem_of_list_lookup in Hk as [x Hx]. destruct (F x k Hx) as (i & g & _ & Hg & _ & _ & -> & ->).
      replace (f_off g) with (f_off g + 0) by lia. eapply sub_field; [by left|done|done|constructor].
    + intros x y k k' Hx Hy Nxy. destruct (F x k Hx) as (i & g & Hi & Hg & _ & _ & -> & ->), (F y k' Hy) as (i' & g' & Hi' & Hg' & _ & _ & -> & ->).
      destruct (get_td_env _ _ _ Ed) as [z Hz].
      assert (i <> i') as Nii by (intros ->; apply Nxy; by eapply NoDup_lookup).
      destruct (Hunion z d Hz i i' g g' Hg Hg' Nii) as [?|[?|[? ?]]]; auto.
  - destruct F as (c & Ec & Lc & Sz & F). split.
    + intros k Hk. apply elem_of_list_lookup in Hk as [x Hx]. destruct (F x k Hx) as (_ & Et & ->). rewrite Et.
      replace (Z.of_nat x * _) with (Z.of_nat x * s_size (elem_ty env (tyn nd) c) + 0) by lia.
      eapply sub_elem; [done|done| |constructor]. apply lookup_lt_Some in Hx. lia.
    + intros x y k k' Hx Hy Nxy. destruct (F x k Hx) as (_ & Et & ->), (F y k' Hy) as (_ & Et' & ->). rewrite Et, Et'.
      pose proof (lookup_lt_Some _ _ _ Hx). destruct (elem_ok env (tyn nd) c Ok E Ec) as [[Hs _] _]; [lia|].
      assert (Z.of_nat x < Z.of_nat y \/ Z.of_nat y < Z.of_nat x) as [?|?] by lia; [left|right; left]; nia.
Qed.

Lemma inl_type h m o : inl h m o -> (forall x, x ∈ subtree h -> fits x) -> stype_ok env (tyn h) -> sub env (tyn h) o (tyn m).
Proof.
  induction 1 as [h|h k m o Hk Hin _ IH]; intros F Ok; [constructor|].
  destruct (kid_types h (F h (subtree_self h)) Ok Hk) as [Hs _]. specialize (Hs k Hin).
  eapply sub_trans; [exact Hs|]. apply IH; [intros x Hx; apply F; exact (subtree_kid _ _ _ Hin Hx)|]. by apply (sub_range env Henv _ _ _ Hs).
Qed.

(** Leaves inside of one object do not overlap. *)
Lemma inl_disjoint h : (forall x, x ∈ subtree h -> fits x) -> stype_ok env (tyn h) -> NoDup (n_idx <$> subtree h) ->
  forall m o m' o', inl h m o -> inl h m' o' -> leaf_kind (s_kind (tyn m)) -> leaf_kind (s_kind (tyn m')) ->
  m = m' /\ o = o' \/ o + s_size (tyn m) <= o' \/ o' + s_size (tyn m') <= o \/
  (scalar_kind (s_kind (tyn m)) /\ scalar_kind (s_kind (tyn m'))).
Proof.
  revert h. apply (node_ind2 (fun h => (forall x, x ∈ subtree h -> fits x) -> stype_ok env (tyn h) -> NoDup (n_idx <$> subtree h) ->
    forall m o m' o', inl h m o -> inl h m' o' -> leaf_kind (s_kind (tyn m)) -> leaf_kind (s_kind (tyn m')) ->
    m = m' /\ o = o' \/ o + s_size (tyn m) <= o' \/ o' + s_size (tyn m') <= o \/
    (scalar_kind (s_kind (tyn m)) /\ scalar_kind (s_kind (tyn m'))))).
  intros h IH F Ok Nd m o m' o' H1 H2 L1 L2.
  inversion H1 as [|? k ? o1 Hk Hin Hi]; subst.
  { inversion H2 as [|? k' ? o2 Hk' Hin' Hi']; subst; [by left|]. exfalso. by destruct Hk' as [E|E]; rewrite E in L1. }
  inversion H2 as [|? k' ? o2 Hk' Hin' Hi']; subst.
  { exfalso. by destruct Hk as [E|E]; rewrite E in L2. }
  destruct (kid_types h (F h (subtree_self h)) Ok Hk) as [Hs Hd].
  pose proof (sub_range env Henv _ _ _ (Hs k Hin) Ok) as (Ok1 & _ & _).
  pose proof (sub_range env Henv _ _ _ (Hs k' Hin') Ok) as (Ok2 & _ & _).
  assert (forall x, x ∈ subtree k -> fits x) as F1 by (intros x Hx; apply F; exact (subtree_kid _ _ _ Hin Hx)).
  assert (forall x, x ∈ subtree k' -> fits x) as F2 by (intros x Hx; apply F; exact (subtree_kid _ _ _ Hin' Hx)).
  destruct (sub_range env Henv _ _ _ (inl_type _ _ _ Hi F1 Ok1) Ok1) as (_ & A1 & A2).
  destruct (sub_range env Henv _ _ _ (inl_type _ _ _ Hi' F2 Ok2) Ok2) as (_ & B1 & B2).
  apply elem_of_list_lookup in Hin as [x Hx], Hin' as [y Hy]. destruct (decide (x = y)) as [<-|Nxy].
  - assert (k' = k) as -> by congruence. rewrite Forall_forall in IH.
    assert (NoDup (n_idx <$> subtree k)) as Nk.
    { eapply nodup_sub; [exact Nd|]. eapply subtree_kid; [by eapply elem_of_list_lookup_2|apply subtree_self]. }
    destruct (IH k (elem_of_list_lookup_2 _ _ _ Hx) F1 Ok1 Nk m o1 m' o2 Hi Hi' L1 L2) as [[-> ->]|[?|[?|?]]]; [by left|right; left; lia|right; right; left; lia|by right; right; right].
  - destruct (Hd x y k k' Hx Hy Nxy) as [?|[?|[S1 S2]]]; [right; left; lia|right; right; left; lia|].
    right; right; right. split.
    + by rewrite (sub_scalar env _ _ _ S1 (inl_type _ _ _ Hi F1 Ok1)).
    + by rewrite (sub_scalar env _ _ _ S2 (inl_type _ _ _ Hi' F2 Ok2)).
Qed.

(** * What a node leaves in the log *)
Definition value_at (P : nat -> Prop) (bs : list (option Z)) (l : list store) (m : node) (a : addr) : Prop :=
  let t := tyn m in
  match s_kind t with
  | Scalar n => scalar_at l a n (n_idx m)
  | Enum => alone_at l a (s_size t) (n_idx m)
  | CharArray => forall x, text m x -> chars_at l a (s_size t) x
  | Str =>
    (n_null m = true \/ n_ref m <> None \/ n_val m = VStr None \/ (exists z, n_val m = VInt z) -> peek l a = Some Null) /\
    (n_null m = false -> n_ref m = None -> forall x, text m x -> exists b, P b /\ peek l a = Some (To (b, 0)) /\
      bs !! b = Some (Some (Z.of_nat (length x) + 1)) /\ string_in l b x)
  | _ => True
  end.

Definition beside (l : list store) (m : node) (a : addr) : Prop :=
  Forall (fun x => away x a (s_size (tyn m)) \/
    (scalar_kind (s_kind (tyn m)) /\ exists j n', st_what x = WScalar j n' /\ j <> n_idx m)) l.

Lemma beside_away l m a : ~ scalar_kind (s_kind (tyn m)) -> beside l m a -> Forall (fun x => away x a (s_size (tyn m))) l.
Proof. intros H B. eapply Forall_impl; [exact B|]. intros x [?|[? _]]; done. Qed.

(** Values stay as they are. *)
Lemma value_mono (P P' : nat -> Prop) (bs bs' : list (option Z)) (l1 l : list store) m a : stype_ok env (tyn m) ->
  beside l1 m a -> (forall b x, P b -> x ∈ l1 -> (st_at x).1 <> b) ->
  (forall b, P b -> P' b) -> (forall b n, P b -> bs !! b = Some n -> bs' !! b = Some n) ->
  value_at P bs l m a -> value_at P' bs' (l1 ++ l) m a.
Proof.
  intros [Hsz Ok] B Bb HP Hb. unfold value_at. destruct (s_kind (tyn m)) as [n| | | | | | | | |] eqn:E; try done.
  - intros (x1 & x2 & -> & F). exists (l1 ++ x1), x2. split; [by rewrite app_assoc|]. apply Forall_app. split; [|done].
    cbn in Ok. eapply Forall_impl; [exact B|]. intros x [Hx|[_ Hx]]; [left|by right]. unfold away in *. lia.
  - intros (x1 & x2 & -> & F). exists (l1 ++ x1), x2. split; [by rewrite app_assoc|]. apply Forall_app. split; [|done].
    apply beside_away; [|done]. rewrite E. by intros [? ?].
  - assert (Forall (fun x => away x a (s_size (tyn m))) l1) as A by (apply beside_away; [|done]; rewrite E; by intros [? ?]).
    intros H x Hx. destruct (H x Hx) as [H1 H2]. split.
    + intros i c Hi Hc. rewrite (char_at_away _ _ _ _ (s_size (tyn m))); [by apply H1|lia|done].
    + intros Hl. rewrite (char_at_away _ _ _ _ (s_size (tyn m))); [by apply H2|lia|done].
  - assert (Forall (fun x => away x a (s_size (tyn m))) l1) as A by (apply beside_away; [|done]; rewrite E; by intros [? ?]).
    cbn in Ok. intros [H1 H2]. split; [rewrite (peek_away _ _ _ (s_size (tyn m))); done|].
    intros Hn Hr x Hx. destruct (H2 Hn Hr x Hx) as (b & Pb & Hp & Hbs & S1 & S2). exists b. split; [by apply HP|].
    split; [by rewrite (peek_away _ _ _ (s_size (tyn m)))|]. split; [by apply Hb|].
    assert (Forall (fun x => (st_at x).1 <> b) l1) as Nb by (apply Forall_forall; intros y Hy; by apply Bb).
    split; [intros i c Hc; rewrite char_at_block by done; by apply S1|].
    destruct S2 as [S2|S2]; [left; by rewrite char_at_block|right]. intros y [Hy|Hy]%elem_of_app Eb; [|by apply S2].
    rewrite Forall_forall in Nb. by destruct (Nb y Hy).
Qed.

(** * One call of [load] *)
Definition news (s s' : state) (b : nat) : Prop := (length (blocks s) <= b < length (blocks s'))%nat.
Definition log_in (s : state) : Prop := Forall (fun x => ((st_at x).1 < length (blocks s))%nat) (log s).

Record Loaded (js : list nat) (inside : node -> Z -> Prop) (Q : store -> Prop) (a : addr) (n : Z) (s s' : state) : Prop := {
  lp_len : length (ra s') = length (ra s);
  lp_frame : forall j, j ∉ js -> ra s' !! j = ra s !! j;
  lp_in : forall m o, inside m o -> exists e e', ra s !! n_idx m = Some e /\ ra s' !! n_idx m = Some e' /\
    e_node e' = e_node e /\ (s_kind (tyn m) = Pointer -> e_ref e' = e_ref e) /\ e_at e' = Some (shift a o, tyn m);
  lp_out : forall j, (forall x o, inside x o -> n_idx x <> j) -> ra s' !! j = ra s !! j;
  lp_blk : exists bs, blocks s' = blocks s ++ (Some <$> bs);
  lp_log : exists l, log s' = l ++ log s /\ Forall (fun x => (in_range a n x \/ news s s' (st_at x).1) /\ Q x) l;
  lp_val : forall m o, inside m o -> value_at (news s s') (blocks s') (log s') m (shift a o);
}.

Definition LP (nd : node) (a : addr) (s s' : state) : Prop :=
  Loaded (n_idx <$> subtree nd) (inl nd) (fun x => scalar_kind (s_kind (tyn nd)) -> exists n', st_what x = WScalar (n_idx nd) n')
    a (s_size (tyn nd)) s s'.

(** Loading the nodes [ks] one after the other next to each other. *)
Inductive Chain (a : addr) : list node -> state -> state -> Prop :=
  | chain_nil s : Chain a [] s s
  | chain_cons k ks s s1 s' : LP k (shift a (offn k)) s s1 -> Chain a ks s1 s' -> Chain a (k :: ks) s s'.

Lemma loaded_log_in js ins Q a n s s' : Loaded js ins Q a n s s' -> log_in s -> (a.1 < length (blocks s))%nat -> log_in s'.
Proof.
  intros [_ _ _ _ [bs Hb] [l [Hl F]] _] H Ha. unfold log_in in *. rewrite Hl. apply Forall_app.
  assert (length (blocks s) <= length (blocks s'))%nat by (rewrite Hb, app_length; lia). split.
  - eapply Forall_impl; [exact F|]. intros x [[[Hx _]|Hx] _]; cbn in *; [lia|]. unfold news in Hx. lia.
  - eapply Forall_impl; [exact H|]. cbn. intros; lia.
Qed.

Definition among (a : addr) (ks : list node) (x : store) : Prop :=
  (st_at x).1 <> a.1 \/ exists y k, ks !! y = Some k /\ in_range (shift a (offn k)) (s_size (tyn k)) x /\
    (scalar_kind (s_kind (tyn k)) -> exists n', st_what x = WScalar (n_idx k) n').

Lemma chain_loaded a n ks s s' : Chain a ks s s' -> log_in s -> (a.1 < length (blocks s))%nat -> NoDup (idxs ks) ->
  (forall k, k ∈ ks -> (forall m, m ∈ subtree k -> fits m) /\ stype_ok env (tyn k) /\ 0 <= offn k /\ offn k + s_size (tyn k) <= n) ->
  (forall x y k k', ks !! x = Some k -> ks !! y = Some k' -> x <> y ->
     offn k + s_size (tyn k) <= offn k' \/ offn k' + s_size (tyn k') <= offn k \/
     (scalar_kind (s_kind (tyn k)) /\ scalar_kind (s_kind (tyn k')))) ->
  Loaded (idxs ks) (fun m o => exists k o', k ∈ ks /\ inl k m o' /\ o = offn k + o') (among a ks) a n s s'.
Proof.
  intros C. induction C as [s|k ks s s1 s' H C IH]; intros Hin Ha Nd Hk Hd.
  { split; [done|done| |done| | |].
    - intros m o (k & ? & H & _). by apply elem_of_nil in H.
    - exists []. by rewrite app_nil_r.
    - exists []. split; [done|constructor].
    - intros m o (k & ? & H & _). by apply elem_of_nil in H. }
  destruct (Hk k (elem_of_list_here _ _)) as (Fk & Ok & O1 & O2).
  rewrite idxs_cons in Nd. apply NoDup_app in Nd as (Nk & Njs & Nks).
  assert ((a.1 < length (blocks s1))%nat) as Ha1.
  { destruct (lp_blk _ _ _ _ _ _ _ H) as [bs ->]. rewrite app_length. lia. }
  specialize (IH (loaded_log_in _ _ _ _ _ _ _ H Hin Ha) Ha1 Nks).
  assert (Loaded (idxs ks) (fun m o => exists k o', k ∈ ks /\ inl k m o' /\ o = offn k + o') (among a ks) a n s1 s') as H2.
  { apply IH; [intros; apply Hk; by right|]. intros x y k1 k2 Hx Hy Nxy. apply (Hd (S x) (S y)); [done|done|lia]. }
  clear IH. destruct (lp_blk _ _ _ _ _ _ _ H) as [bs1 B1]. destruct (lp_blk _ _ _ _ _ _ _ H2) as [bs2 B2].
  destruct (lp_log _ _ _ _ _ _ _ H) as (l1 & L1 & Q1). destruct (lp_log _ _ _ _ _ _ _ H2) as (l2 & L2 & Q2).
  assert (length (blocks s) <= length (blocks s1))%nat as W1 by (rewrite B1, app_length; lia).
  assert (length (blocks s1) <= length (blocks s'))%nat as W2 by (rewrite B2, app_length; lia).
  assert (forall m o, inl k m o -> n_idx m ∉ idxs ks) as Nin.
  { intros m o Hi. apply Njs. apply elem_of_list_fmap_1. by eapply inl_sub. }
  assert (forall m o k', k' ∈ ks -> inl k' m o -> n_idx m ∉ n_idx <$> subtree k) as Nout.
  { intros m o k' Hk' Hi Hj. eapply Njs; [exact Hj|]. apply elem_of_list_fmap_1, elem_of_concat_map. exists k'. split; [done|]. by eapply inl_sub. }
  split.
  - rewrite (lp_len _ _ _ _ _ _ _ H2). apply (lp_len _ _ _ _ _ _ _ H).
  - intros j Hj. rewrite idxs_cons, not_elem_of_app in Hj. destruct Hj. rewrite (lp_frame _ _ _ _ _ _ _ H2) by done. by apply (lp_frame _ _ _ _ _ _ _ H).
  - intros m o (k' & o' & [->|Hk']%elem_of_cons & Hi & ->).
    + destruct (lp_in _ _ _ _ _ _ _ H m o' Hi) as (e & e' & E & E' & N & Rf & A). exists e, e'. split; [done|].
      rewrite (lp_frame _ _ _ _ _ _ _ H2) by by eapply Nin. split; [done|]. split; [done|]. split; [done|]. by rewrite A, shift_shift.
    + destruct (lp_in _ _ _ _ _ _ _ H2 m (offn k' + o')) as (e & e' & E & E' & N & Rf & A); [by exists k', o'|]. exists e, e'.
      rewrite (lp_frame _ _ _ _ _ _ _ H) in E by by eapply Nout. done.
  - intros j Hj. rewrite (lp_out _ _ _ _ _ _ _ H2); [apply (lp_out _ _ _ _ _ _ _ H)|].
    + intros x o Hx. eapply Hj. exists k, o. split; [by left|]. by split.
    + intros x o (k' & o' & Hk' & Hx & ->). eapply Hj. exists k', o'. split; [by right|]. by split.
  - exists (bs1 ++ bs2). by rewrite B2, B1, fmap_app, app_assoc.
  - exists (l2 ++ l1). rewrite L2, L1, app_assoc. split; [done|]. apply Forall_app. split.
    + eapply Forall_impl; [exact Q2|]. intros x [Hx Hq]. split; [destruct Hx as [?|Hx]; [by left|right]; unfold news in *; lia|].
      destruct Hq as [?|(y & k' & Hy & R)]; [by left|right]. by exists (S y), k'.
    + eapply Forall_impl; [exact Q1|]. intros x [[Hx|Hx] Hq].
      * split; [left; destruct Hx as (E & X1 & X2); unfold in_range, shift in *; cbn in *; lia|]. right. by exists 0%nat, k.
      * split; [right; unfold news in *; lia|]. left. unfold news in Hx. lia.
  - intros m o (k' & o' & [->|Hk']%elem_of_cons & Hi & ->).
    + pose proof (inl_type _ _ _ Hi Fk Ok) as Hs. destruct (sub_range env Henv _ _ _ Hs Ok) as (Okm & R1 & R2).
      rewrite L2. eapply value_mono; [done| | | | |rewrite <- shift_shift; by apply (lp_val _ _ _ _ _ _ _ H)].
      * apply Forall_forall. intros x Hx. rewrite Forall_forall in Q2. destruct (Q2 x Hx) as [_ [Hq|(y & k' & Hy & (E & X1 & X2) & Hsc)]].
        { left. left. cbn. done. }
        destruct (Hd 0%nat (S y) k k' eq_refl Hy) as [D|[D|[S1 S2]]]; [done|left; right; right|left; right; left|right].
        -- unfold shift in *. cbn in *. lia.
        -- unfold shift in *. cbn in *. lia.
        -- assert (m = k) as ->.
           { inversion Hi as [|? ? ? ? Hc]; subst; [done|]. destruct S1 as [? S1]. destruct Hc; congruence. }
           split; [done|]. destruct (Hsc S2) as [n' Hn']. exists (n_idx k'), n'. split; [done|]. intros Eq.
           eapply Njs; [apply elem_of_list_fmap_1, subtree_self|]. rewrite <- Eq. apply elem_of_list_fmap_1, elem_of_concat_map.
           exists k'. split; [by eapply elem_of_list_lookup_2|apply subtree_self].
      * intros b x Hb Hx Eb. rewrite Forall_forall in Q2. destruct (Q2 x Hx) as [[(E & _)|E] _]; unfold news in *; [lia|lia].
      * unfold news. lia.
      * intros b x Hb Hx. rewrite B2. by apply lookup_app_l_Some.
    + pose proof (lp_val _ _ _ _ _ _ _ H2 m (offn k' + o')) as V. 
      rewrite <- (app_nil_l (log s')). eapply value_mono; [| | | | |apply V; by exists k', o'].
      * destruct (Hk k') as (Fk' & Ok' & _); [by right|]. by apply (sub_range env Henv _ _ _ (inl_type _ _ _ Hi Fk' Ok')).
      * constructor.
      * intros ? ? _ Hx. by apply elem_of_nil in Hx.
      * unfold news. lia.
      * done.
Qed.

Lemma suits_accepts f nd : suits f nd -> accepts f nd (n_fd nd) = true.
Proof.
  unfold suits, accepts. destruct (n_fd nd) as [[name t]|]; [|done]. intros [H1 H2]. apply andb_true_intro. split.
  - destruct (n_typed nd); [|done]. rewrite H1 by done. cbn [andb].
    destruct (s_td (f_ty f)) as [x|]; [cbn; by rewrite Nat.eqb_refl|done].
  - destruct H2 as [-> |[-> |[-> | ->]]]; [done|by destruct (f_unnamed f), (f_name f)|by destruct (f_unnamed f)|].
    destruct (f_name f) as [x|]; [rewrite N.eqb_refl|]; by destruct (f_unnamed f).
Qed.

Lemma field_for_choose fields d prev i g : fields !! i = Some g -> field_for fields d prev i g -> choose_field fields d prev = Some i.
Proof.
  assert (forall n i g, fields !! i = Some g -> f_name g = Some n -> (forall j h, (j < i)%nat -> fields !! j = Some h -> f_name h <> Some n) ->
    find_field fields n = Some i) as Find.
  { clear. induction fields as [|h fields IH]; intros n i g Hg Hn Hf; [done|]. cbn [find_field]. destruct i as [|i].
    - cbn in Hg. injection Hg as ->. by rewrite Hn, N.eqb_refl.
    - destruct (f_name h) as [x|] eqn:Eh.
      + destruct (N.eqb_spec x n) as [->|_]; [by destruct (Hf 0%nat h ltac:(lia) eq_refl)|].
        rewrite (IH n i g Hg Hn); [done|]. intros j h' Hj. apply (Hf (S j)). lia.
      + rewrite (IH n i g Hg Hn); [done|]. intros j h' Hj. apply (Hf (S j)). lia. }
  assert (forall n, (forall j h, fields !! j = Some h -> f_name h <> Some n) -> find_field fields n = None) as None'.
  { clear. induction fields as [|h fields IH]; intros n Hf; [done|]. cbn [find_field].
    rewrite IH; [|intros j; apply (Hf (S j))]. pose proof (Hf 0%nat h eq_refl) as H0. destruct (f_name h) as [x|]; [|done].
    destruct (N.eqb_spec x n); [congruence|done]. }
  intros Hg [(n & t & -> & Hn & Hf)|[-> Hf]]; unfold choose_field.
  - by rewrite (Find n i g).
  - assert (next_field fields prev = Some (match prev with None => O | Some p => S p end)) as Nx.
    { unfold next_field. apply lookup_lt_Some in Hg. by destruct (Nat.ltb_spec (match prev with None => O | Some p => S p end) (length fields)); [|lia]. }
    destruct d as [[[n|] t]|]; [|done|done]. rewrite (None' n); [done|]. apply (Hf n t eq_refl).
Qed.

Definition load_fit (nd : node) : Prop := forall nf a f par s m0,
  (forall m, m ∈ subtree nd -> fits m /\ (0 < n_idx m < length (ra s))%nat) -> NoDup (n_idx <$> subtree nd) ->
  f_ty f = tyn nd -> suits f nd -> stype_ok env (tyn nd) -> (par = None \/ s_kind (tyn nd) <> CharArray) ->
  log_in s -> blocks s !! a.1 = Some (Some m0) -> 0 <= a.2 -> a.2 + s_size (tyn nd) <= m0 ->
  exists s', load env leaf alloc nd (n_fd nd) nf a f par s = Some (true, None, s') /\ LP nd a s s'.

Record Kids (ks : list node) (a : addr) (n : Z) (s : state) : Prop := {
  k_fit : Forall load_fit ks;
  k_nodup : NoDup (idxs ks);
  k_each : forall k, k ∈ ks -> (forall m, m ∈ subtree k -> fits m /\ (0 < n_idx m < length (ra s))%nat) /\
    stype_ok env (tyn k) /\ 0 <= offn k /\ offn k + s_size (tyn k) <= n;
  k_log : log_in s;
  k_room : exists m0, blocks s !! a.1 = Some (Some m0) /\ 0 <= a.2 /\ a.2 + n <= m0;
}.

Lemma kids_next k ks a n s s1 : Kids (k :: ks) a n s -> LP k (shift a (offn k)) s s1 -> Kids ks a n s1.
Proof.
  intros [K1 K2 K3 K4 (m0 & K5 & K6 & K7)] H. pose proof (lookup_lt_Some _ _ _ K5). split.
  - by inversion K1.
  - rewrite idxs_cons in K2. by apply NoDup_app in K2 as (_ & _ & ?).
  - intros k' Hk'. destruct (K3 k') as (F & R); [by right|]. split; [|done]. intros m Hm. rewrite (lp_len _ _ _ _ _ _ _ H). by apply F.
  - by eapply loaded_log_in.
  - exists m0. split; [|done]. destruct (lp_blk _ _ _ _ _ _ _ H) as [bs ->]. by apply lookup_app_l_Some.
Qed.

Lemma kids_head k ks a n s nf f par : Kids (k :: ks) a n s -> f_ty f = tyn k -> suits f k -> (par = None \/ s_kind (tyn k) <> CharArray) ->
  exists s1, load env leaf alloc k (n_fd k) nf (shift a (offn k)) f par s = Some (true, None, s1) /\ LP k (shift a (offn k)) s s1.
Proof.
  intros [K1 K2 K3 K4 (m0 & K5 & K6 & K7)] Hf Hs Hp. inversion K1 as [|? ? Fk _]; subst.
  destruct (K3 k (elem_of_list_here _ _)) as (F & Ok & O1 & O2).
  apply (Fk nf (shift a (offn k)) f par s m0); try done.
  - rewrite idxs_cons in K2. by apply NoDup_app in K2 as (? & _).
  - cbn. lia.
  - cbn. lia.
Qed.

Lemma values_ok fields a n : forall ks (is : list nat) prev s, Kids ks a n s ->
  (forall x k, ks !! x = Some k -> exists i g, is !! x = Some i /\ fields !! i = Some g /\ suits g k /\
     field_for fields (n_fd k) (match x with O => prev | S y => is !! y end) i g /\ tyn k = f_ty g /\ offn k = f_off g) ->
  exists s', values (load env leaf alloc) fields a ks prev None s = Some (true, None, s') /\ Chain a ks s s'.
Proof.
  induction ks as [|k ks IH]; intros is prev s K H.
  { exists s. split; [done|constructor]. }
  destruct (H 0%nat k eq_refl) as (i & g & Hi & Hg & Hs & Hf & Ht & Ho).
  cbn [values]. rewrite (field_for_choose _ _ _ _ _ Hg Hf), Hg. cbn [mbind option_bind].
  destruct (kids_head k ks a n s (next_nameless ks) g None K (eq_sym Ht) Hs (or_introl eq_refl)) as (s1 & E1 & H1).
  rewrite <- Ho, E1. cbn [mbind option_bind].
  destruct (IH (tail is) (Some i) s1) as (s' & E' & C).
  - by eapply kids_next.
  - intros x k' Hx. destruct (H (S x) k' Hx) as (i' & g' & Hi' & R). exists i', g'.
    destruct is as [|i0 is]; [done|]. cbn [tail]. cbn in Hi. injection Hi as ->. split; [done|]. by destruct x.
  - exists s'. split; [done|]. by econstructor.
Qed.

Lemma elements_ok c f a n T : elem_ty env (f_ty f) c = T ->
  forall ks x0 s, Kids ks a n s -> Z.of_nat x0 + Z.of_nat (length ks) <= c ->
  (forall x k, ks !! x = Some k -> suits_type T k /\ tyn k = T /\ offn k = (Z.of_nat x0 + Z.of_nat x) * s_size T) ->
  exists s', elements (load env leaf alloc) c (elem_fd env f c) a ks (Z.of_nat x0) None s = Some (true, None, s') /\ Chain a ks s s'.
Proof.
  intros HT. induction ks as [|k ks IH]; intros x0 s K Hc H.
  { exists s. split; [done|constructor]. }
  destruct (H 0%nat k eq_refl) as (Hs & Ht & Ho). cbn [elements]. cbn [length] in Hc.
  destruct (Z.leb_spec c (Z.of_nat x0)); [lia|].
  assert (f_ty (elem_fd env f c) = T) as HT' by done.
  destruct (kids_head k ks a n s (next_nameless ks) (elem_fd env f c) None K) as (s1 & E1 & H1).
  - by rewrite HT'.
  - unfold suits. unfold suits_type in Hs. destruct (n_fd k) as [[nm t]|]; [|done]. split; [by rewrite HT'|by left].
  - by left.
  - rewrite HT'. replace (Z.of_nat x0 * s_size T) with (offn k) by (rewrite Ho; lia). rewrite E1. cbn [mbind option_bind].
    destruct (IH (S x0) s1) as (s' & E' & C).
    + by eapply kids_next.
    + lia.
    + intros x k' Hx. destruct (H (S x) k' Hx) as (R1 & R2 & R3). split; [done|]. split; [done|]. rewrite R3. f_equal. lia.
    + replace (Z.of_nat x0 + 1) with (Z.of_nat (S x0)) by lia. exists s'. split; [done|]. by econstructor.
Qed.

Lemma inl_only nd : n_kids nd = [] \/ s_kind (tyn nd) = Pointer -> forall m o, inl nd m o -> m = nd /\ o = 0.
Proof.
  intros Nk m o H. inversion H as [|? ? ? ? Hc Hin]; subst; [done|]. destruct Nk as [Nk|Nk]; [rewrite Nk in Hin; by apply elem_of_nil in Hin|].
  destruct Hc; congruence.
Qed.

Lemma leaf_LP nd a s s' : n_kids nd = [] \/ s_kind (tyn nd) = Pointer -> (n_idx nd < length (ra s))%nat ->
  length (ra s') = length (ra s) -> (forall j, j <> n_idx nd -> ra s' !! j = ra s !! j) ->
  (forall e, ra s !! n_idx nd = Some e -> exists e', ra s' !! n_idx nd = Some e' /\ e_node e' = e_node e /\ (s_kind (tyn nd) = Pointer -> e_ref e' = e_ref e) /\ e_at e' = Some (a, tyn nd)) ->
  (exists bs, blocks s' = blocks s ++ (Some <$> bs)) ->
  (exists l, log s' = l ++ log s /\ Forall (fun x => (in_range a (s_size (tyn nd)) x \/ news s s' (st_at x).1) /\
    (scalar_kind (s_kind (tyn nd)) -> exists n', st_what x = WScalar (n_idx nd) n')) l) ->
  value_at (news s s') (blocks s') (log s') nd a -> LP nd a s s'.
Proof.
  intros Nk Hl L Fr En Bl Lg V.
  pose proof (inl_only nd Nk) as Only.
  split; [done| | | |done|done|].
  - intros j Hj. apply Fr. intros ->. apply Hj. rewrite idxs_sub. by left.
  - intros m o [-> ->]%Only. destruct (lookup_lt_is_Some_2 _ _ Hl) as [e E]. destruct (En e E) as (e' & E' & N & Rf & A). exists e, e'. by rewrite shift_0.
  - intros j Hj. apply Fr. intros ->. exact (Hj nd 0 (inl_self nd) eq_refl).
  - intros m o [-> ->]%Only. by rewrite shift_0.
Qed.

Lemma comp_LP nd a s s' : s_kind (tyn nd) = Struct \/ s_kind (tyn nd) = Array -> (n_idx nd < length (ra s))%nat -> n_idx nd ∉ idxs (n_kids nd) ->
  Loaded (idxs (n_kids nd)) (fun m o => exists k o', k ∈ n_kids nd /\ inl k m o' /\ o = offn k + o') (among a (n_kids nd)) a (s_size (tyn nd))
    (set_entry s (n_idx nd) (at_entry a (tyn nd))) s' -> LP nd a s s'.
Proof.
  intros Hk Hl Nn [L1 L2 L3 L4 L5 L6 L7]. cbn [set_entry ra log blocks] in *. rewrite alter_length in L1.
  destruct (lookup_lt_is_Some_2 _ _ Hl) as [e E].
  split; [done| | | |done| |].
  - intros j Hj. rewrite idxs_sub, not_elem_of_cons in Hj. destruct Hj. rewrite L2 by done. by rewrite list_lookup_alter_ne.
  - intros m o H. inversion H as [|? k ? o' _ Hin Hi]; subst.
    + exists e, (at_entry a (tyn m) e). rewrite L2 by done. rewrite list_lookup_alter, E, shift_0. done.
    + destruct (L3 m (offn k + o')) as (e1 & e' & E1 & R); [by exists k, o'|]. 
      assert (n_idx m <> n_idx nd) as Nm.
      { intros Eq. apply Nn. rewrite <- Eq. apply elem_of_list_fmap_1, elem_of_concat_map. exists k. split; [done|]. by eapply inl_sub. }
      rewrite list_lookup_alter_ne in E1 by done. by exists e1, e'.
  - intros j Hj. rewrite L4.
    + rewrite list_lookup_alter_ne; [done|]. exact (Hj nd 0 (inl_self nd)).
    + intros x o (k & o' & Hin & Hi & ->). eapply Hj. by eapply inl_kid.
  - destruct L6 as (l & El & F). exists l. split; [done|]. eapply Forall_impl; [exact F|]. intros x [H _]. split; [done|].
    intros [n Hn]. destruct Hk; congruence.
  - intros m o H. inversion H as [|? k ? o' _ Hin Hi]; subst; [|by apply L7; exists k, o'].
    unfold value_at. by destruct Hk as [-> | ->].
Qed.

Lemma load_fits : forall nd, load_fit nd.
Proof.
  apply node_ind2. intros nd IH nf a f par s m0 HF Nd Hf Hs Ok Hp Hlog Hm A1 A2.
  destruct (HF nd (subtree_self nd)) as [Fn Hi].
  pose proof (suits_accepts _ _ Hs) as Ac. pose proof (lookup_lt_Some _ _ _ Hm) as Ha.
  assert (LP0 : n_idx nd ∉ idxs (n_kids nd) /\ NoDup (idxs (n_kids nd))) by (rewrite idxs_sub in Nd; by apply NoDup_cons in Nd).
  destruct (lookup_lt_is_Some_2 _ _ (proj2 Hi)) as [e E].
  set (s1 := set_entry s (n_idx nd) (at_entry a (tyn nd))).
  assert (HK : s_kind (tyn nd) = Struct \/ s_kind (tyn nd) = Array -> Kids (n_kids nd) a (s_size (tyn nd)) s1).
  { intros Hk. destruct (kid_types nd Fn Ok Hk) as [Sub _]. split; [done|by apply LP0| |done|by exists m0].
    intros k Hin. destruct (sub_range env Henv _ _ _ (Sub k Hin) Ok) as (Okk & O1 & O2). split; [|done].
    intros m Hm'. cbn. rewrite alter_length. apply HF. exact (subtree_kid _ _ _ Hin Hm'). }
  assert (HC : forall s', s_kind (tyn nd) = Struct \/ s_kind (tyn nd) = Array -> Chain a (n_kids nd) s1 s' -> LP nd a s s').
  { intros s' Hk C. apply comp_LP; [done|lia|by apply LP0|]. destruct (HK Hk) as [_ K2 K3 _ _]. eapply chain_loaded; try done.
    - intros k Hin. destruct (K3 k Hin) as (F & R). split; [|done]. intros m Hm'. by apply F.
    - by apply (kid_types nd Fn Ok Hk). }
  remember (n_fd nd) as nfd eqn:Efd.
  destruct nd as [idx par' id nfd' typed null ref val kids].
  set (nd := Node idx par' id nfd' typed null ref val kids) in *.
  unfold nd. cbn [load]. fold nd. clearbody nd.
  destruct (Nat.ltb_spec 0 (n_idx nd)); [|lia].
  destruct (Nat.ltb_spec (n_idx nd) (length (ra s))); [|lia]. cbn [andb negb].
  rewrite Ac. cbn [negb]. rewrite Hf.
  change (set_entry s (n_idx nd) _) with s1.
  assert (R1 : forall j, j <> n_idx nd -> ra s1 !! j = ra s !! j) by (intros j Hj; cbn; by rewrite list_lookup_alter_ne).
  assert (R2 : forall e0, ra s !! n_idx nd = Some e0 -> exists e', ra s1 !! n_idx nd = Some e' /\ e_node e' = e_node e0 /\ e_ref e' = e_ref e0 /\ e_at e' = Some (a, tyn nd)).
  { intros e0 E0. exists (at_entry a (tyn nd) e0). cbn. by rewrite list_lookup_alter, E0. }
  assert (R3 : length (ra s1) = length (ra s)) by (cbn; by rewrite alter_length).
  assert (R4 : forall (z : state), blocks z = blocks s -> exists bs, blocks z = blocks s ++ (Some <$> bs)).
  { intros z ->. exists []. by rewrite app_nil_r. }
  pose proof Fn as Fn'. unfold LoadFits.fits in Fn'. pose proof Ok as [Ok1 Ok2].
  assert (HSc : forall n, n_kids nd = [] -> leaf nd (tyn nd) = (true, true) ->
    (s_kind (tyn nd) = Scalar n \/ s_kind (tyn nd) = Enum /\ n = s_size (tyn nd)) ->
    exists s', load_scalar leaf nd a (tyn nd) n s1 = Some (true, None, s') /\ LP nd a s s').
  { intros n Nk El Hkn. unfold load_scalar. rewrite El.
    assert (n <= s_size (tyn nd)) as Hn.
    { destruct Hkn as [Hk|[_ ->]]; [|lia]. rewrite Hk in Ok2. cbn in Ok2. lia. }
    rewrite (put_ok s1 a _ m0); [|done|done|cbn; lia]. cbn [mbind option_bind]. eexists. split; [reflexivity|].
    apply leaf_LP; [by left|lia|done|done|by intros e0 E0; destruct (R2 e0 E0) as (e' & ? & ? & ? & ?); exists e'|by apply R4| |].
    - exists [Store a (WScalar (n_idx nd) n)]. split; [done|]. constructor; [|constructor]. split; [left|intros _; by exists n].
      unfold in_range. cbn. lia.
    - unfold value_at. cbn [log]. destruct Hkn as [-> |[-> ->]].
      + by exists [], (log s).
      + by exists [], (log s). }
  destruct (s_kind (tyn nd)) as [n| | | | | | | | |] eqn:Ek.
  - apply HSc; [by apply Fn'|by apply Fn'|by left].
  - apply HSc; [by apply Fn'|by apply Fn'|by right].
  - destruct Fn' as (Nk & x & Hx). destruct Hp as [->|]; [|done].
    destruct (char_array_ok alloc nd a (tyn nd) s1 m0 Hm A1 Ok1 A2) as (ok & s' & new & El & B & Ra & L & In & _ & T).
    destruct (T x Hx) as [-> _]. exists s'. split; [done|]. apply leaf_LP; [by left|lia|by rewrite Ra|by rewrite Ra|by intros e0 E0; rewrite Ra; destruct (R2 e0 E0) as (e' & ? & ? & ? & ?); exists e'|by apply R4| |].
    + exists new. split; [done|]. eapply Forall_impl; [exact In|]. intros y Hy. split; [by left|]. intros [? ?]. congruence.
    + unfold value_at. rewrite Ek. intros y Hy. destruct (T y Hy) as (_ & C1 & C2). by split.
  - destruct Fn' as (Nk & Hv). cbn in Ok2. unfold load_string.
    assert (In0 : forall p, in_range a (s_size (tyn nd)) (Store a (WPtr p))) by (intros p; unfold in_range; cbn; lia).
    assert (Sc0 : forall w, scalar_kind (s_kind (tyn nd)) -> exists n', st_what w = WScalar (n_idx nd) n') by (intros w [? ?]; congruence).
    rewrite (put_ok s1 a _ m0); [|done|done|cbn; lia]. cbn [mbind option_bind]. set (s2 := State (blocks s1) _ _).
    assert (NullLP : forall l, Forall (fun x => x = Store a (WPtr Null)) l -> l <> [] -> forall r, length r = length (ra s) ->
      (forall j, j <> n_idx nd -> r !! j = ra s !! j) ->
      (forall e0, ra s !! n_idx nd = Some e0 -> exists e', r !! n_idx nd = Some e' /\ e_node e' = e_node e0 /\  e_at e' = Some (a, tyn nd)) ->
      (n_null nd = true \/ n_ref nd <> None \/ n_val nd = VStr None \/ exists z, n_val nd = VInt z) -> LP nd a s (State (blocks s) (l ++ log s) r)).
    { intros l Fl Nl r Lr Fr Er Hnull. apply leaf_LP; [by left|lia|done|done|intros e0 E0; destruct (Er e0 E0) as (e' & ? & ? & ?); exists e'; split; [done|]; split; [done|]; split; [congruence|done]|by apply R4| |].
      - exists l. split; [done|]. eapply Forall_impl; [exact Fl|]. intros y ->. split; [by left|apply Sc0].
      - unfold value_at. rewrite Ek. split.
        + intros _. destruct l as [|y l]; [done|]. inversion Fl; subst. cbn [log app]. rewrite peek_cons, meets_self. cbn. by rewrite Z.eqb_refl.
        + intros N1 N2 x Hx. exfalso. destruct Hnull as [?|[?|[?|[z ?]]]]; [congruence|done|destruct Hx; congruence|destruct Hx; congruence]. }
    assert (StrLP : forall x w, n_null nd = false -> n_ref nd = None -> text nd x -> (w = x \/ w = x ++ [0]) ->
      exists s', (s3 ← put (State (blocks s2 ++ [Some (Z.of_nat (length x) + 1)]) (log s2) (ra s2)) a (WPtr (To (length (blocks s2), 0)));
        s4 ← put s3 (length (blocks s2), 0) (WText w); Some (true, None, s4)) = Some (true, None (A := option N * option nat), s') /\ LP nd a s s').
    { intros x w Hnn Hnr Hx Hw.
      assert (Z.of_nat (length w) <= Z.of_nat (length x) + 1) as Lw by (destruct Hw as [-> | ->]; [|rewrite app_length; cbn]; lia).
      assert (a.1 <> length (blocks s)) as Nb by lia.
      rewrite (put_ok _ a _ m0); [|cbn; by apply lookup_app_l_Some|done|cbn; lia]. cbn [mbind option_bind blocks].
      rewrite (put_ok _ _ _ (Z.of_nat (length x) + 1)); [|cbn [blocks fst]; by rewrite lookup_app_r, Nat.sub_diag|cbn; lia|cbn; lia].
      cbn [mbind option_bind blocks log ra]. eexists. split; [reflexivity|].
      apply leaf_LP; [by left|lia|done|done|by intros e0 E0; destruct (R2 e0 E0) as (e' & ? & ? & ? & ?); exists e'|by exists [Z.of_nat (length x) + 1]| |].
      - eexists [_; _; _]. split; [reflexivity|]. constructor; [|constructor; [|constructor; [|constructor]]]; (split; [|apply Sc0]).
        + right. unfold news. cbn. rewrite app_length. cbn. lia.
        + by left.
        + by left.
      - unfold value_at. rewrite Ek. split.
        + intros Hnull. exfalso. destruct Hnull as [?|[?|[?|[z ?]]]]; [congruence|done|destruct Hx; congruence|destruct Hx; congruence].
        + intros N1 N2 y Hy.
          assert (y = x) as -> by (destruct Hx, Hy; congruence).
          exists (length (blocks s)). split; [unfold news; cbn; rewrite app_length; cbn; lia|]. cbn [log blocks]. split.
          { rewrite peek_cons, (away_meets _ _ 8); [|lia|left; cbn; lia]. rewrite peek_cons, meets_self. cbn. by rewrite Z.eqb_refl. }
          split; [by rewrite lookup_app_r, Nat.sub_diag|].
          assert (forall i c, w !! i = Some c -> char_at (Store (length (blocks s), 0) (WText w) :: Store a (WPtr (To (length (blocks s), 0))) :: Store a (WPtr Null) :: log s) (length (blocks s), Z.of_nat i) = Some c) as Ch.
          { intros i c Hc. rewrite char_at_hit; [|done|cbn; apply lookup_lt_Some in Hc; lia]. cbn. by rewrite Z.sub_0_r, Nat2Z.id. }
          split.
          { intros i c Hc. apply Ch. destruct Hw as [-> | ->]; [done|]. by apply lookup_app_l_Some. }
          destruct Hw as [-> | ->].
          * right. intros z Hz Hb. unfold s2 in Hz; cbn [log blocks] in Hz. rewrite !elem_of_cons in Hz. destruct Hz as [->|[->|[->|Hz]]]; [cbn; lia|cbn in Hb; lia|cbn in Hb; lia|].
            unfold log_in in Hlog. rewrite Forall_forall in Hlog. specialize (Hlog z Hz). lia.
          * left. apply Ch. by rewrite lookup_app_r, Nat.sub_diag. }
    destruct (n_null nd) eqn:Enl.
    { exists s2. split; [done|]. apply (NullLP [_]); [by repeat constructor|done|done|done|by intros e0 E0; destruct (R2 e0 E0) as (e' & ? & ? & ? & ?); exists e'|by left]. }
    destruct (n_ref nd) as [r|] eqn:Erf.
    { exists s2. split; [done|]. apply (NullLP [_]); [by repeat constructor|done|done|done|by intros e0 E0; destruct (R2 e0 E0) as (e' & ? & ? & ? & ?); exists e'|by right; left]. }
    cbn [orb]. destruct (n_val nd) as [z|t|[t|]|] eqn:Ev.
    + eexists. split; [reflexivity|]. apply (NullLP [_]); [by repeat constructor|done|cbn; by rewrite !alter_length| | |right; right; right; by exists z].
      * intros j Hj. cbn. rewrite !list_lookup_alter_ne by done. done.
      * intros e0 E0. cbn. rewrite !list_lookup_alter, E0. cbn. eexists. split; [done|]. split; [done|]. done.
    + unfold calloc. rewrite Halloc. apply (StrLP t t); [done|done|by left|by left].
    + apply (StrLP t (t ++ [0])); [done|done|by right|by right].
    + rewrite (put_ok s2 a _ m0); [|done|done|cbn; lia]. cbn [mbind option_bind]. eexists. split; [reflexivity|].
      apply (NullLP [_; _]); [by repeat constructor|done|done|done|by intros e0 E0; destruct (R2 e0 E0) as (e' & ? & ? & ? & ?); exists e'|by right; right; left].
    + destruct Hv as [?|[?|?]]; done.
  - destruct Fn' as (d & is & Ed & Li & Nis & F). rewrite Ed.
    destruct (values_ok (t_fields d) a (s_size (tyn nd)) (n_kids nd) is None s1) as (s' & E' & C); [apply HK; by left| |].
    + exact F.
    + exists s'. split; [done|]. apply HC; [by left|done].
  - done.
  - destruct Fn' as (c & Ec & Lc & Sz & F). rewrite Ec. cbn [mbind option_bind].
    destruct (Z.eqb_spec c 0) as [->|Nc].
    { destruct (n_kids nd) as [|k ks] eqn:Ekd; [|cbn in Lc; lia]. exists s1. split; [done|]. apply HC; [by right|constructor]. }
    destruct (Z.eqb_spec (s_size (tyn nd)) 0); [by destruct (Sz Nc)|].
    destruct (elements_ok c f a (s_size (tyn nd)) (elem_ty env (tyn nd) c)) with (n_kids nd) 0%nat s1 as (s' & E' & C); [by rewrite Hf|apply HK; by right|lia| |].
    + intros x k Hx. destruct (F x k Hx) as (X1 & X2 & X3). by rewrite X3.
    + exists s'. split; [done|]. apply HC; [by right|done].
  - exists s1. split; [done|]. apply leaf_LP; [by right|lia|done|done|by intros e0 E0; destruct (R2 e0 E0) as (e' & ? & ? & ? & ?); exists e'|by apply R4| |].
    + by exists [].
    + unfold value_at. by rewrite Ek.
  - exists s1. split; [done|]. apply leaf_LP; [by left|lia|done|done|by intros e0 E0; destruct (R2 e0 E0) as (e' & ? & ? & ? & ?); exists e'|by apply R4| |].
    + by exists [].
    + unfold value_at. by rewrite Ek.
  - done.
Qed.
End fits.
