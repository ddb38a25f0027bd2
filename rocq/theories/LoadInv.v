(** The invariant of the loader (src/mr_load.c): types of blocks, ownership. *)
From Verif Require Import Base Load LoadSpec LoadSafe.
Local Open Scope Z_scope.

(** * Reading pointers from the log *)
Definition peek (l : list store) (a : addr) : option ptr :=
  match filter (fun x => is_true (meets a x)) l with
  | [] => Some Null
  | Store b (WPtr p) :: _ => if b.2 =? a.2 then Some p else None
  | _ => None
  end.

Lemma peek_nil a : peek [] a = Some Null.
Proof. done. Qed.

Lemma peek_cons x l a :
  peek (x :: l) a =
  if meets a x then
    match st_what x with
    | WPtr p => if (st_at x).2 =? a.2 then Some p else None
    | _ => None
    end
  else peek l a.
Proof.
  unfold peek. rewrite filter_cons.
  destruct (decide (is_true (meets a x))) as [H|H].
  - unfold is_true in H. rewrite H. destruct x as [b w]. by destruct w.
  - unfold is_true in H. by destruct (meets a x).
Qed.

Lemma get_ptr_peek s a n :
  blocks s !! a.1 = Some (Some n) -> 0 <= a.2 -> a.2 + 8 <= n -> get_ptr s a = peek (log s) a.
Proof.
  intros H H1 H2. unfold get_ptr. rewrite H.
  destruct (Z.leb_spec 0 a.2); [|lia]. destruct (Z.leb_spec (a.2 + 8) n); [|lia]. done.
Qed.

Lemma put_ok s a w n :
  blocks s !! a.1 = Some (Some n) -> 0 <= a.2 -> a.2 + width w <= n ->
  put s a w = Some (State (blocks s) (Store a w :: log s) (ra s)).
Proof.
  intros H H1 H2. unfold put. rewrite H.
  destruct (Z.leb_spec 0 a.2); [|lia]. destruct (Z.leb_spec (a.2 + width w) n); [|lia]. done.
Qed.

Lemma shift_0 a : shift a 0 = a.
Proof. destruct a. unfold shift. cbn. f_equal. lia. Qed.

Lemma shift_shift a x y : shift (shift a x) y = shift a (x + y).
Proof. unfold shift. cbn. f_equal. lia. Qed.

(** * Ghost types of blocks *)
(** Element type, number of elements, index of the node of the pointer that the
    block was allocated for; [None] for the text of a string. *)
Notation gty := (option (stype * Z * nat)).

Section env.
Context (env : list td).
Hypothesis Henv : env_ok env.
Hypothesis Hunion : union_free env.

Definition place (bty : list gty) (a : addr) (t : stype) (ow : nat) : Prop :=
  exists ty cnt i o, bty !! a.1 = Some (Some (ty, cnt, ow)) /\ 0 <= i < cnt /\
    sub env ty o t /\ a.2 = i * s_size ty + o.

Definition types_ok (bty : list gty) : Prop :=
  forall b ty cnt ow, bty !! b = Some (Some (ty, cnt, ow)) -> stype_ok env ty /\ 0 <= cnt.

Lemma place_app bty x a t ow : place bty a t ow -> place (bty ++ x) a t ow.
Proof.
  intros (ty & cnt & i & o & H & R). exists ty, cnt, i, o. split; [|done].
  by apply lookup_app_l_Some.
Qed.

Lemma place_sub bty a t ow o t' : place bty a t ow -> sub env t o t' -> place bty (shift a o) t' ow.
Proof.
  intros (ty & cnt & i & o1 & H & Hi & Hs & Ha) H'.
  exists ty, cnt, i, (o1 + o). cbn. split; [done|]. split; [done|].
  split; [by eapply sub_trans|lia].
Qed.

Lemma place_type bty a t ow : types_ok bty -> place bty a t ow -> stype_ok env t.
Proof.
  intros HT (ty & cnt & i & o1 & H & Hi & Hs & Ha).
  by apply (sub_range env Henv _ _ _ Hs), (HT _ _ _ _ H).
Qed.

Lemma place_disjoint bty a1 t1 ow1 a2 t2 ow2 :
  types_ok bty -> place bty a1 t1 ow1 -> place bty a2 t2 ow2 -> a1.1 = a2.1 ->
  leaf_kind (s_kind t1) -> leaf_kind (s_kind t2) ->
  (a1.2 = a2.2 /\ t1 = t2) \/ a1.2 + s_size t1 <= a2.2 \/ a2.2 + s_size t2 <= a1.2 \/
  (scalar_kind (s_kind t1) /\ scalar_kind (s_kind t2)).
Proof.
  intros HT (ty & cnt & i & o1 & H & Hi & Hs & Ha) (ty' & cnt' & i' & o2 & H' & Hi' & Hs' & Ha') E L1 L2.
  rewrite E in H. rewrite H in H'. injection H' as <- <- <-.
  destruct (HT _ _ _ _ H) as [Hok Hc].
  destruct (sub_range env Henv _ _ _ Hs Hok) as (_ & A1 & A2).
  destruct (sub_range env Henv _ _ _ Hs' Hok) as (_ & B1 & B2).
  pose proof (proj1 Hok) as Hnn. rewrite Ha, Ha'.
  destruct (Z.lt_trichotomy i i') as [?|[->|?]].
  - right; left; nia.
  - destruct (sub_disjoint env Henv Hunion _ _ _ _ _ Hs Hs' Hok L1 L2) as [[-> ->]|[?|[?|?]]];
      [by left|right; left; lia|right; right; left; lia|by right; right; right].
  - right; right; left; nia.
Qed.

Lemma is_ptr_leaf k : is_ptr k -> leaf_kind k.
Proof. by intros [-> | ->]. Qed.
Lemma is_ptr_scalar k : is_ptr k -> ~ scalar_kind k.
Proof. by intros [-> | ->] [n H]. Qed.
Lemma ptr_size t : stype_ok env t -> is_ptr (s_kind t) -> 8 <= s_size t.
Proof. intros [_ H] [E|E]; rewrite E in H; cbn in H; [by destruct H|done]. Qed.

Definition store_ok (bty : list gty) (x : store) : Prop :=
  match st_what x with
  | WPtr _ => exists t ow, place bty (st_at x) t ow /\ is_ptr (s_kind t)
  | WScalar _ n => exists t ow, place bty (st_at x) t ow /\
      (s_kind t = Scalar n \/ (s_kind t = Enum /\ n = s_size t))
  | WText l =>
    bty !! (st_at x).1 = Some None \/
    exists t ow d, place bty (shift (st_at x) (- d)) t ow /\ s_kind t = CharArray /\
      0 <= d /\ d + Z.of_nat (length l) <= s_size t
  end.

Lemma store_ok_app bty x y : store_ok bty y -> store_ok (bty ++ x) y.
Proof.
  unfold store_ok. destruct (st_what y).
  - intros (t & ow & H & R). exists t, ow. split; [by apply place_app|done].
  - intros [H|(t & ow & d & H & R)]; [left; by apply lookup_app_l_Some|right].
    exists t, ow, d. split; [by apply place_app|done].
  - intros (t & ow & H & R). exists t, ow. split; [by apply place_app|done].
Qed.

Lemma store_meets_ptr bty x a t ow :
  types_ok bty -> store_ok bty x -> place bty a t ow -> is_ptr (s_kind t) -> meets a x = true ->
  st_at x = a /\ exists p, st_what x = WPtr p.
Proof.
  intros HT Hx Ha Hp Hm. unfold meets in Hm.
  apply andb_prop in Hm as [Hm M3]. apply andb_prop in Hm as [Hm M2]. apply andb_prop in Hm as [M0 M1].
  apply Nat.eqb_eq in M1. apply Z.ltb_lt in M0, M2, M3.
  pose proof (place_type _ _ _ _ HT Ha) as Tt. pose proof (ptr_size _ Tt Hp).
  unfold store_ok in Hx. destruct (st_what x) as [p|l|idx n] eqn:Ew; cbn [width] in *.
  - destruct Hx as (t' & ow' & Hx & Hp').
    pose proof (ptr_size _ (place_type _ _ _ _ HT Hx) Hp').
    destruct (place_disjoint _ _ _ _ _ _ _ HT Ha Hx M1 (is_ptr_leaf _ Hp) (is_ptr_leaf _ Hp'))
      as [[E _]|[?|[?|[? _]]]]; [|lia|lia|by apply is_ptr_scalar in Hp].
    split; [|by exists p]. destruct (st_at x), a; cbn in *. congruence.
  - destruct Hx as [Hx|(t' & ow' & d & Hx & Hk & Hd & Hl)].
    { destruct Ha as (? & ? & ? & ? & Ha & _). rewrite <- M1 in Hx. congruence. }
    destruct (place_disjoint _ _ _ _ _ _ _ HT Ha Hx M1 (is_ptr_leaf _ Hp)) as [[_ E]|[?|[?|[? _]]]].
    + by rewrite Hk.
    + subst t'. destruct Hp; congruence.
    + cbn in *. lia.
    + cbn in *. lia.
    + by apply is_ptr_scalar in Hp.
  - destruct Hx as (t' & ow' & Hx & Hk).
    pose proof (place_type _ _ _ _ HT Hx) as [T0 T1].
    assert (n <= s_size t').
    { destruct Hk as [Hk|[Hk ->]]; [|lia]. rewrite Hk in T1. cbn in T1. lia. }
    destruct (place_disjoint _ _ _ _ _ _ _ HT Ha Hx M1 (is_ptr_leaf _ Hp)) as [[_ E]|[?|[?|[? _]]]].
    + by destruct Hk as [Hk|[Hk _]]; rewrite Hk.
    + subst t'. destruct Hp, Hk as [?|[? _]]; congruence.
    + lia.
    + lia.
    + by apply is_ptr_scalar in Hp.
Qed.

Lemma meets_self a p : meets a (Store a (WPtr p)) = true.
Proof.
  unfold meets. cbn [st_what st_at width]. rewrite Nat.eqb_refl.
  destruct (Z.ltb_spec a.2 (a.2 + 8)); [|lia]. done.
Qed.

Lemma peek_place bty l a t ow :
  types_ok bty -> Forall (store_ok bty) l -> place bty a t ow -> is_ptr (s_kind t) ->
  exists p, peek l a = Some p.
Proof.
  intros HT HF Ha Hp. induction HF as [|x l Hx HF IH]; [by exists Null|].
  rewrite peek_cons. destruct (meets a x) eqn:M; [|done].
  destruct (store_meets_ptr _ _ _ _ _ HT Hx Ha Hp M) as [-> [p ->]].
  rewrite Z.eqb_refl. by exists p.
Qed.

(** A pointer store at a pointer place changes that place only. *)
Lemma peek_put_ptr bty l a t ow b p :
  types_ok bty -> place bty a t ow -> is_ptr (s_kind t) -> store_ok bty (Store b (WPtr p)) ->
  peek (Store b (WPtr p) :: l) a = if decide (a = b) then Some p else peek l a.
Proof.
  intros HT Ha Hp Hb. rewrite peek_cons.
  destruct (decide (a = b)) as [->|Hne].
  - rewrite meets_self. cbn. by rewrite Z.eqb_refl.
  - destruct (meets a (Store b (WPtr p))) eqn:M; [|done].
    destruct (store_meets_ptr _ _ _ _ _ HT Hb Ha Hp M) as [E _]. cbn in E. congruence.
Qed.

(** Something read as an address was stored there. *)
Lemma peek_To_cons x l a y :
  peek (x :: l) a = Some (To y) -> x = Store a (WPtr (To y)) \/ (meets a x = false /\ peek l a = Some (To y)).
Proof.
  rewrite peek_cons. destruct (meets a x) eqn:M; [|by right]. left.
  unfold meets in M.
  apply andb_prop in M as [M M3]. apply andb_prop in M as [M M2]. apply andb_prop in M as [M0 M1].
  apply Nat.eqb_eq in M1. destruct x as [b w]; cbn in *. destruct w; try done.
  destruct (Z.eqb_spec b.2 a.2) as [E|]; [|done]. injection H as ->.
  destruct a, b; cbn in *. congruence.
Qed.

Lemma peek_holds s bty a t ow p :
  types_ok bty -> Forall (store_ok bty) (log s) -> place bty a t ow -> is_ptr (s_kind t) ->
  peek (log s) a = Some p <-> holds s a p.
Proof.
  intros HT HF Ha Hp. unfold holds, peek.
  destruct (filter _ (log s)) as [|x l] eqn:E.
  { split; [by intros [= <-]|by intros ->]. }
  assert (Hx : x ∈ filter (fun x => is_true (meets a x)) (log s)) by (rewrite E; constructor).
  apply elem_of_list_filter in Hx as [Hm Hx]. rewrite Forall_forall in HF.
  destruct (store_meets_ptr _ _ _ _ _ HT (HF _ Hx) Ha Hp Hm) as [Hat [p' Hw]].
  destruct x as [b w]. cbn in Hat, Hw. subst. rewrite Z.eqb_refl. split; [by intros [= ->]|by intros [= ->]].
Qed.

(** * The invariant *)
(** [i]: the nodes of pointers below [i] may have been followed. *)
Record Inv (bty : list gty) (i : nat) (s : state) : Prop := {
  i_len : length bty = length (blocks s);
  i_ty : types_ok bty;
  i_size : forall b ty cnt ow m, bty !! b = Some (Some (ty, cnt, ow)) ->
    blocks s !! b = Some (Some m) -> cnt * s_size ty <= m;
  i_at : forall j e a t, ra s !! j = Some e -> e_at e = Some (a, t) ->
    exists ow, place bty a t ow /\ (ow < j)%nat;
  i_log : Forall (store_ok bty) (log s);
  i_own : forall a b o, peek (log s) a = Some (To (b, o)) ->
    o = 0 /\ (0 < b)%nat /\
    exists j e t, ra s !! j = Some e /\ e_at e = Some (a, t) /\
      ((s_kind t = Str /\ bty !! b = Some None) \/
       (s_kind t = Pointer /\ exists ty cnt, bty !! b = Some (Some (ty, cnt, j))));
  i_uni : forall a a' x, peek (log s) a = Some (To x) -> peek (log s) a' = Some (To x) -> a = a';
  i_leak : one_value s -> forall b m, blocks s !! S b = Some (Some m) ->
    exists a, peek (log s) a = Some (To (S b, 0));
  i_par : forall j e, ra s !! j = Some e -> e_at e <> None ->
    n_par (e_node e) = O \/
    exists ep, ra s !! n_par (e_node e) = Some ep /\ e_at ep <> None /\
      (loaded_as Pointer ep = true -> (n_par (e_node e) < i)%nat);
  i_ow : forall b ty cnt ow, bty !! S b = Some (Some (ty, cnt, ow)) -> (ow < i)%nat;
}.

Lemma own_place bty i s a x :
  Inv bty i s -> peek (log s) a = Some (To x) -> exists t ow, place bty a t ow /\ is_ptr (s_kind t).
Proof.
  intros HI H. destruct x as [b o].
  destruct (i_own _ _ _ HI _ _ _ H) as (_ & _ & j & e & t & Hj & He & Hk).
  destruct (i_at _ _ _ HI _ _ _ _ Hj He) as (ow & Hp & _).
  exists t, ow. split; [done|]. destruct Hk as [[? _]|[? _]]; [by right|by left].
Qed.

Lemma inv_mono bty i j s : (i <= j)%nat -> Inv bty i s -> Inv bty j s.
Proof.
  intros Hij []. split; try done.
  - intros k e H H'. destruct (i_par0 k e H H') as [?|(ep & ? & ? & Hp)]; [by left|right].
    exists ep. split; [done|]. split; [done|]. intros. specialize (Hp H2). lia.
  - intros b ty cnt ow H. specialize (i_ow0 _ _ _ _ H). lia.
Qed.

(** Entry [idx] gets its place. *)
Definition at_entry (a : addr) (t : stype) (e : entry) : entry := Entry (e_node e) (Some (a, t)) (e_ref e).

Lemma one_value_at s idx e a t :
  ra s !! idx = Some e -> e_at e = None -> one_value (set_entry s idx (at_entry a t)) -> one_value s.
Proof.
  intros He Hn H i j e1 e2 b t1 t2 H1 H2 A1 A2 K1 K2.
  eapply (H i j e1 e2 b t1 t2); try done; cbn [set_entry ra]; rewrite list_lookup_alter_ne; try done; congruence.
Qed.

Lemma inv_at bty i s idx e a t ow :
  Inv bty i s -> ra s !! idx = Some e -> e_at e = None -> place bty a t ow -> (ow < idx)%nat ->
  (n_par (e_node e) = O \/
   (n_par (e_node e) <> idx /\ exists ep, ra s !! n_par (e_node e) = Some ep /\ e_at ep <> None /\
      (loaded_as Pointer ep = true -> (n_par (e_node e) < i)%nat))) ->
  Inv bty i (set_entry s idx (at_entry a t)).
Proof.
  intros HI He Hn Ha How Hpar.
  assert (Hlu : forall j e', ra (set_entry s idx (at_entry a t)) !! j = Some e' ->
            (j = idx /\ e' = at_entry a t e) \/ (j <> idx /\ ra s !! j = Some e')).
  { intros j e'. cbn [set_entry ra]. destruct (decide (j = idx)) as [->|Hne].
    - rewrite list_lookup_alter, He. cbn. intros [= <-]. by left.
    - rewrite list_lookup_alter_ne by congruence. by right. }
  assert (Hold : forall j e', ra s !! j = Some e' -> e_at e' <> None ->
            ra (set_entry s idx (at_entry a t)) !! j = Some e').
  { intros j e' H H'. cbn [set_entry ra]. rewrite list_lookup_alter_ne; [done|]. intros ->. congruence. }
  destruct HI as [I1 I2 I3 I4 I5 I6 I7 I8 I9 I10].
  split; cbn [set_entry blocks log]; try done.
  - intros j e' b t' H H'. apply Hlu in H as [[-> ->]|[_ H]].
    + cbn in H'. injection H' as <- <-. by exists ow.
    + by eapply I4.
  - intros b x o H. destruct (I6 _ _ _ H) as (? & ? & j & e' & t' & Hj & He' & R).
    split; [done|]. split; [done|]. exists j, e', t'. split; [|done].
    apply Hold; [done|]. by rewrite He'.
  - intros H1 b m Hb. eapply I8; [|done]. by eapply one_value_at.
  - intros j e' H H'. apply Hlu in H as [[-> ->]|[Hne H]]; cbn [at_entry e_node].
    + destruct Hpar as [?|(? & ep & Hep & Hat & Hp)]; [by left|right].
      exists ep. split; [|done]. by apply Hold.
    + destruct (I9 _ _ H H') as [?|(ep & Hep & Hat & Hp)]; [by left|right].
      exists ep. split; [|done]. by apply Hold.
Qed.

(** A change of the reference of an entry. *)
Lemma inv_ref bty i s idx r :
  Inv bty i s -> Inv bty i (set_entry s idx (fun e => Entry (e_node e) (e_at e) r)).
Proof.
  intros [I1 I2 I3 I4 I5 I6 I7 I8 I9 I10]. set (f := fun e => Entry (e_node e) (e_at e) r).
  assert (Hlu : forall j e', ra (set_entry s idx f) !! j = Some e' ->
            exists e, ra s !! j = Some e /\ e_at e = e_at e' /\ e_node e = e_node e').
  { intros j e'. cbn [set_entry ra]. destruct (decide (j = idx)) as [->|Hne].
    - rewrite list_lookup_alter. destruct (ra s !! idx) as [e|]; cbn; [|done]. intros [= <-]. by exists e.
    - rewrite list_lookup_alter_ne by congruence. intros H. by exists e'. }
  assert (Hold : forall j e, ra s !! j = Some e ->
            exists e', ra (set_entry s idx f) !! j = Some e' /\ e_at e' = e_at e /\ e_node e' = e_node e).
  { intros j e H. cbn [set_entry ra]. destruct (decide (j = idx)) as [->|Hne].
    - rewrite list_lookup_alter, H. by exists (f e).
    - rewrite list_lookup_alter_ne by congruence. by exists e. }
  split; cbn [set_entry blocks log]; try done.
  - intros j e' a t H H'. destruct (Hlu _ _ H) as (e & He & E & _). eapply I4; [done|by rewrite E].
  - intros a b o H. destruct (I6 _ _ _ H) as (? & ? & j & e & t & Hj & He & R).
    split; [done|]. split; [done|]. destruct (Hold _ _ Hj) as (e' & He' & E & _).
    exists j, e', t. split; [done|]. split; [by rewrite E|done].
  - intros H1. apply I8. intros x y e1 e2 a t t' X1 X2 A1 A2 K1 K2.
    destruct (Hold _ _ X1) as (e1' & Y1 & E1 & _). destruct (Hold _ _ X2) as (e2' & Y2 & E2 & _).
    eapply (H1 x y e1' e2' a t t'); try done; by rewrite ?E1, ?E2.
  - intros j e' H H'. destruct (Hlu _ _ H) as (e & He & E1 & E2). rewrite <- E2.
    destruct (I9 j e He) as [?|(ep & Hep & Hat & Hp)]; [by rewrite E1|by left|right].
    destruct (Hold _ _ Hep) as (ep' & Hep' & F1 & _). exists ep'. split; [done|].
    split; [by rewrite F1|]. intros L. apply Hp. unfold loaded_as in *. by rewrite F1 in L.
Qed.

(** A store that is not a pointer. *)
Lemma inv_put bty i s a w :
  Inv bty i s -> store_ok bty (Store a w) -> (forall p, w <> WPtr p) ->
  Inv bty i (State (blocks s) (Store a w :: log s) (ra s)).
Proof.
  intros HI Hs Hw.
  assert (Hdown : forall b x, peek (Store a w :: log s) b = Some (To x) -> peek (log s) b = Some (To x)).
  { intros b x H. apply peek_To_cons in H as [H|[_ H]]; [|done]. injection H as _ H. by destruct (Hw _ H). }
  assert (Hup : forall b x, peek (log s) b = Some (To x) -> peek (Store a w :: log s) b = Some (To x)).
  { intros b x H. rewrite peek_cons. destruct (meets b (Store a w)) eqn:M; [|done].
    destruct (own_place _ _ _ _ _ HI H) as (t & ow & Hp & Hk).
    destruct (store_meets_ptr _ _ _ _ _ (i_ty _ _ _ HI) Hs Hp Hk M) as [_ [p E]]. by destruct (Hw _ E). }
  destruct HI as [I1 I2 I3 I4 I5 I6 I7 I8 I9 I10]. split; cbn [blocks log ra]; try done.
  - by constructor.
  - intros b x o H. by apply I6, Hdown.
  - intros b b' x H H'. by apply (I7 b b' x); apply Hdown.
  - intros H b m Hb. destruct (I8 H b m Hb) as [c Hc]. exists c. by apply Hup.
Qed.

(** NULL is stored in a pointer that does not own a block. *)
Lemma inv_null bty i s a t ow :
  Inv bty i s -> place bty a t ow -> is_ptr (s_kind t) ->
  (one_value s -> forall x, peek (log s) a <> Some (To x)) ->
  Inv bty i (State (blocks s) (Store a (WPtr Null) :: log s) (ra s)).
Proof.
  intros HI Ha Hk Hn.
  assert (Hs : store_ok bty (Store a (WPtr Null))) by (exists t, ow; done).
  assert (Hdown : forall b x, peek (Store a (WPtr Null) :: log s) b = Some (To x) -> peek (log s) b = Some (To x)).
  { intros b x H. apply peek_To_cons in H as [H|[_ H]]; done. }
  assert (Hup : forall b x, b <> a -> peek (log s) b = Some (To x) ->
                 peek (Store a (WPtr Null) :: log s) b = Some (To x)).
  { intros b x Hne H. destruct (own_place _ _ _ _ _ HI H) as (t' & ow' & Hp & Hk').
    rewrite (peek_put_ptr _ _ _ _ _ _ _ (i_ty _ _ _ HI) Hp Hk' Hs). by destruct (decide (b = a)). }
  destruct HI as [I1 I2 I3 I4 I5 I6 I7 I8 I9 I10]. split; cbn [blocks log ra]; try done.
  - by constructor.
  - intros b x o H. by apply I6, Hdown.
  - intros b b' x H H'. by apply (I7 b b' x); apply Hdown.
  - intros H b m Hb. destruct (I8 H b m Hb) as [c Hc]. exists c. apply Hup; [|done].
    intros ->. by apply (Hn H) in Hc.
Qed.

(** A new block is allocated and stored in a pointer that does not own one. *)
Lemma inv_new bty i s g n j e a t :
  Inv bty i s -> ra s !! j = Some e -> e_at e = Some (a, t) ->
  ((s_kind t = Str /\ g = None) \/
   (s_kind t = Pointer /\ exists ty cnt, g = Some (ty, cnt, j) /\ stype_ok env ty /\ 0 <= cnt /\
      cnt * s_size ty <= n /\ (j < i)%nat)) ->
  (0 < length bty)%nat ->
  (one_value s -> forall x, peek (log s) a <> Some (To x)) ->
  Inv (bty ++ [g]) i
    (State (blocks s ++ [Some n]) (Store a (WPtr (To (length (blocks s), 0))) :: log s) (ra s)).
Proof.
  intros HI Hj He Hg Hpos Hn. pose proof (i_len _ _ _ HI) as Hlen. rewrite <- Hlen.
  destruct (i_at _ _ _ HI _ _ _ _ Hj He) as (ow & Ha & How).
  assert (Hk : is_ptr (s_kind t)) by (destruct Hg as [[? _]|[? _]]; [by right|by left]).
  assert (HT : types_ok (bty ++ [g])).
  { intros b ty cnt o H. apply lookup_app_Some in H as [H|[Hl H]]; [by eapply (i_ty _ _ _ HI)|].
    apply list_lookup_singleton_Some in H as [_ ->].
    destruct Hg as [[_ ?]|[_ (ty' & cnt' & E & H1 & H2 & _)]]; [done|]. injection E as -> -> ->. done. }
  assert (Hs : store_ok (bty ++ [g]) (Store a (WPtr (To (length bty, 0))))).
  { exists t, ow. split; [by apply place_app|done]. }
  assert (Hdown : forall b x, peek (Store a (WPtr (To (length bty, 0))) :: log s) b = Some (To x) ->
            (b = a /\ x = (length bty, 0)) \/ peek (log s) b = Some (To x)).
  { intros b x H. apply peek_To_cons in H as [H|[_ H]]; [|by right]. injection H as -> ->. by left. }
  assert (Hup : forall b x, b <> a -> peek (log s) b = Some (To x) ->
                 peek (Store a (WPtr (To (length bty, 0))) :: log s) b = Some (To x)).
  { intros b x Hne H. destruct (own_place _ _ _ _ _ HI H) as (t' & ow' & Hp & Hk').
    rewrite (peek_put_ptr (bty ++ [g]) _ _ t' ow'); [|done|by apply place_app|done|done].
    by destruct (decide (b = a)). }
  assert (Hbound : forall b y, peek (log s) b = Some (To y) -> (y.1 < length bty)%nat).
  { intros b [y o] H. destruct (i_own _ _ _ HI _ _ _ H) as (_ & _ & j' & e' & t' & _ & _ & H').
    cbn. destruct H' as [[_ H']|[_ (ty & cnt & H')]]; by eapply lookup_lt_Some. }
  destruct HI as [I1 I2 I3 I4 I5 I6 I7 I8 I9 I10]. split; cbn [blocks log ra]; try done.
  - rewrite !app_length. cbn. lia.
  - intros b ty cnt o m H H'. apply lookup_app_Some in H as [H|[Hl H]].
    + rewrite lookup_app_l in H' by (rewrite <- Hlen; by eapply lookup_lt_Some). by eapply I3.
    + apply list_lookup_singleton_Some in H as [Hb E].
      rewrite lookup_app_r in H' by (rewrite <- Hlen; exact Hl). rewrite <- Hlen, Hb in H'. cbn in H'. injection H' as ->.
      destruct Hg as [[_ ?]|[_ (ty' & cnt' & E' & _ & _ & H2 & _)]]; [congruence|]. congruence.
  - intros j' e' b t' H H'. destruct (I4 _ _ _ _ H H') as (o & Hp & ?). exists o. split; [by apply place_app|done].
  - constructor; [done|]. eapply Forall_impl; [exact I5|]. intros y Hy. by apply store_ok_app.
  - intros b x o H. apply Hdown in H as [[-> E]|H].
    + injection E as -> ->. split; [done|]. split; [done|]. exists j, e, t.
      split; [done|]. split; [done|].
      rewrite lookup_app_r, Nat.sub_diag by lia. cbn.
      destruct Hg as [[? ->]|[? (ty' & cnt' & -> & _)]]; [by left|right].
      split; [done|]. by exists ty', cnt'.
    + destruct (I6 _ _ _ H) as (? & ? & j' & e' & t' & Hj' & He' & R).
      split; [done|]. split; [done|]. exists j', e', t'. split; [done|]. split; [done|].
      destruct R as [[? R]|[? (ty & cnt & R)]]; [left|right]; (split; [done|]).
      * by apply lookup_app_l_Some.
      * exists ty, cnt. by apply lookup_app_l_Some.
  - intros b b' x H H'. apply Hdown in H as [[-> ->]|H]; apply Hdown in H' as [[-> E]|H'].
    + done.
    + apply Hbound in H'. cbn in H'. lia.
    + subst x. apply Hbound in H. cbn in H. lia.
    + by apply (I7 b b' x).
  - intros H b m Hb. apply lookup_app_Some in Hb as [Hb|[Hl Hb]].
    + destruct (I8 H b m Hb) as [c Hc]. exists c. apply Hup; [|done]. intros ->. by apply (Hn H) in Hc.
    + apply list_lookup_singleton_Some in Hb as [Hb _]. exists a.
      rewrite peek_cons, meets_self. cbn [st_at st_what]. rewrite Z.eqb_refl.
      replace (S b) with (length bty) by lia. done.
  - intros b ty cnt o H. apply lookup_app_Some in H as [H|[Hl H]]; [by eapply I10|].
    apply list_lookup_singleton_Some in H as [_ E].
    destruct Hg as [[_ ?]|[_ (ty' & cnt' & E' & _ & _ & _ & H2)]]; congruence.
Qed.
End env.
