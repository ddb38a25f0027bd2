(** Proofs about the XDR model. *)
From Coq Require Import ZArith Lia.
From Verif Require Import Base Xdr.
Local Open Scope Z_scope.

(** ** Reading the buffer *)

Lemma peek_spec n b h : 0 <= h -> h + Z.of_nat n <= Z.of_nat (length b) ->
  peek n b h = Some (take n (drop (Z.to_nat h) b)).
Proof.
  revert h. induction n as [|n IH]; intros h H0 H1; [done|].
  cbn -[rd]. destruct (h <? 0) eqn:E; [lia|].
  destruct (lookup_lt_is_Some_2 b (Z.to_nat h)) as [x Hx]; [lia|].
  rewrite (rd_lu _ _ _ Hx). cbn -[rd]. rewrite IH by lia. cbn.
  replace (Z.to_nat (h + 1)) with (S (Z.to_nat h)) by lia.
  by rewrite (drop_S _ _ _ Hx).
Qed.

Lemma u32_small z : 0 <= z < 2 ^ 32 -> u32 z = z.
Proof. intros. by apply Z.mod_small. Qed.

(** Exact behaviour of getbytes inside of the buffer. *)
Lemma getbytes_spec n b h : 0 <= n -> 0 <= h <= Z.of_nat (length b) -> Z.of_nat (length b) < 2 ^ 32 ->
  getbytes n b h =
    if Z.of_nat (length b) - h <? n then Fail
    else Ok (take (Z.to_nat n) (drop (Z.to_nat h) b)) (h + n).
Proof.
  intros Hn Hh Hb. unfold getbytes.
  destruct (_ <? n) eqn:E; [done|].
  rewrite peek_spec by lia. by rewrite u32_small by lia.
Qed.

(** ** Decoders are local and fail on truncated input *)

Definition byte (c : Z) : Prop := 0 <= c < 256.
Definition agree (k : Z) (b b' : list Z) : Prop := take (Z.to_nat k) b' = take (Z.to_nat k) b.

(** A buffer and a position inside of it. *)
Definition inb (b : list Z) (h : Z) : Prop :=
  Forall byte b /\ Z.of_nat (length b) < 2 ^ 32 /\ 0 <= h <= Z.of_nat (length b).

(** A success of [d] yields a value with [P], stays in the buffer, depends on the
    consumed bytes only, and turns into a failure when they are truncated. *)
Definition good {A} (d : dec A) (P : A -> Prop) : Prop := forall b h a h', inb b h -> d b h = Ok a h' ->
  P a /\ h <= h' <= Z.of_nat (length b) /\
  (forall b', Z.of_nat (length b') < 2 ^ 32 -> h' <= Z.of_nat (length b') -> agree h' b b' -> d b' h = Ok a h') /\
  (forall n, h <= n < h' -> d (take (Z.to_nat n) b) h = Fail).

Definition any {A} (_ : A) : Prop := True.

Lemma good_ret {A} (a : A) (P : A -> Prop) : P a -> good (ret a) P.
Proof. intros HP b h x h' (_ & ? & ?) [= <- <-]. split; [done|]. split; [lia|]. split; [done|lia]. Qed.
Lemma good_fail {A} P : good (@fail A) P.
Proof. by intros b h x h'. Qed.
Lemma good_ub {A} P : good (fun _ _ => @UB A) P.
Proof. by intros b h x h'. Qed.
Lemma good_oof {A} P : good (fun _ _ => @Oof A) P.
Proof. by intros b h x h'. Qed.
Lemma good_if {A} (c : bool) (d e : dec A) P : (c = true -> good d P) -> (c = false -> good e P) -> good (if c then d else e) P.
Proof. destruct c; auto. Qed.
Lemma good_weaken {A} (d : dec A) (P Q : A -> Prop) : good d P -> (forall a, P a -> Q a) -> good d Q.
Proof. intros G W b h a h' Hi E. destruct (G b h a h' Hi E) as (? & ?). split; [by apply W|done]. Qed.

Lemma agree_le k k' b b' : 0 <= k <= k' -> agree k' b b' -> agree k b b'.
Proof.
  unfold agree. intros Hk E.
  assert (Hm : Z.to_nat k = Nat.min (Z.to_nat k) (Z.to_nat k')) by lia.
  rewrite Hm, <- !take_take. by rewrite E.
Qed.

Lemma good_bnd {A B} (m : dec A) (P : A -> Prop) (k : A -> dec B) (Q : B -> Prop) :
  good m P -> (forall a, P a -> good (k a) Q) -> good (bnd m k) Q.
Proof.
  intros Gm Gk b h x h2 Hi E. unfold bnd in E. pose proof Hi as (By & Hb & Hh).
  destruct (m b h) as [a h1| | |] eqn:Em; try done.
  destruct (Gm b h a h1 Hi Em) as (Pa & L1 & A1 & F1).
  destruct (Gk a Pa b h1 x h2) as (Qx & L2 & A2 & F2); [split; [done|lia]|done|].
  split; [done|]. split; [lia|]. split.
  - intros b' Hb' Hl Ha. unfold bnd. rewrite (A1 b') by (try lia; eapply agree_le, Ha; lia).
    by apply A2.
  - intros n Hn. unfold bnd. destruct (Z_lt_le_dec n h1) as [Hlt|Hge].
    + by rewrite F1 by lia.
    + rewrite (A1 (take (Z.to_nat n) b)); [apply F2; lia|rewrite take_length; lia|rewrite take_length; lia|].
      unfold agree. rewrite take_take. f_equal. lia.
Qed.

Definition bytes (n : Z) (l : list Z) : Prop := Forall byte l /\ Z.of_nat (length l) = n.

Lemma good_getbytes n : 0 <= n -> good (getbytes n) (bytes n).
Proof.
  intros Hn b h a h' (By & Hb & Hh) E. rewrite getbytes_spec in E by lia.
  destruct (Z.ltb_spec (Z.of_nat (length b) - h) n) as [P|P]; [done|]. injection E as <- <-.
  split; [|split; [lia|split]].
  - split; [by apply Forall_take, Forall_drop|]. rewrite take_length, drop_length. lia.
  - intros b' Hb' Hl Ha. rewrite getbytes_spec by lia.
    destruct (Z.ltb_spec (Z.of_nat (length b') - h) n) as [Q|Q]; [lia|].
    f_equal. unfold agree in Ha.
    replace (Z.to_nat (h + n)) with (Z.to_nat h + Z.to_nat n)%nat in Ha by lia.
    rewrite !firstn_skipn_comm. by rewrite Ha.
  - intros k Hk. rewrite getbytes_spec; rewrite ?take_length; try lia.
    match goal with |- context [?x <? n] => destruct (Z.ltb_spec x n) as [Q|Q] end; [done|lia].
Qed.

Lemma of_be32_range l : bytes 4 l -> 0 <= of_be32 l < 2 ^ 32.
Proof.
  intros [F L]. destruct l as [|x0 [|x1 [|x2 [|x3 [|]]]]]; cbn in L; try lia.
  unfold byte in F. repeat (apply Forall_cons in F; destruct F as [? F]). unfold of_be32. cbn -[Z.mul Z.add Z.pow]. lia.
Qed.

Definition below (n z : Z) : Prop := 0 <= z < n.

(** Inside of the buffer getlong is getbytes of four bytes. *)
Definition getlong' : dec Z := let* l := getbytes 4 in ret (of_be32 l).
Lemma getlong_bytes b h : 0 <= h <= Z.of_nat (length b) -> Z.of_nat (length b) < 2 ^ 32 -> getlong b h = getlong' b h.
Proof.
  intros Hh Hb. unfold getlong, getlong', bnd, getbytes. rewrite Z.mod_small by lia.
  destruct (_ <? 4); [done|]. change (Z.to_nat 4) with 4%nat. by destruct (peek 4 b h).
Qed.
Lemma good_ext {A} (d e : dec A) P : (forall b h, 0 <= h <= Z.of_nat (length b) -> Z.of_nat (length b) < 2 ^ 32 -> d b h = e b h) -> good e P -> good d P.
Proof.
  intros X G b h a h' Hi E. pose proof Hi as (By & Hb & Hh). rewrite X in E by done. destruct (G b h a h' Hi E) as (Pa & L & A1 & F1).
  split; [done|]. split; [done|]. split.
  - intros b' Hb' Hl Ha. rewrite X by lia. by apply A1.
  - intros n Hn. rewrite X; [by apply F1|rewrite take_length; lia|rewrite take_length; lia].
Qed.

Lemma good_getlong : good getlong (below (2 ^ 32)).
Proof.
  apply (good_ext _ getlong'); [apply getlong_bytes|]. eapply good_bnd; [by apply good_getbytes|]. intros l Hl. apply good_ret. by apply of_be32_range.
Qed.

Lemma pad_len_range n : 0 <= pad_len n < 4.
Proof. unfold pad_len. apply Z.mod_pos_bound. lia. Qed.

Lemma good_opaque n : 0 <= n -> good (get_opaque n) (bytes n).
Proof.
  intros. unfold get_opaque. apply good_if; intros E.
  { apply good_ret. split; [done|cbn; lia]. }
  eapply good_bnd; [by apply good_getbytes|]. intros l Hl. apply good_if; intros E'; [by apply good_ret|].
  eapply good_bnd; [apply good_getbytes, pad_len_range|]. intros. by apply good_ret.
Qed.

Lemma good_get64 : good get64 (below (2 ^ 64)).
Proof.
  eapply good_bnd; [apply good_getlong|]. intros hi Hhi. eapply good_bnd; [apply good_getlong|]. intros lo Hlo.
  apply good_ret. unfold below in *. lia.
Qed.

Lemma good_get_int k : good (get_int k) (below (2 ^ bits k)).
Proof.
  destruct k as [| |  | |]; cbn -[Z.pow].
  - eapply good_bnd; [apply good_getlong|]; intros; apply good_ret. by apply Z.mod_pos_bound.
  - eapply good_bnd; [apply good_getlong|]; intros; apply good_ret. by apply Z.mod_pos_bound.
  - apply good_getlong.
  - apply good_get64.
  - eapply good_bnd; [apply good_get64|]. intros lo Hlo. eapply good_bnd; [apply good_get64|]. intros hi Hhi.
    apply good_ret. unfold below in *. lia.
Qed.

Lemma good_into cap n : 0 <= n -> good (into cap n) (bytes n).
Proof.
  intros. eapply good_bnd; [by apply good_opaque|]. intros l Hl.
  apply good_if; intros; [apply good_ub|by apply good_ret].
Qed.

Lemma good_any {A} (a : A) : good (ret a) any.
Proof. by apply good_ret. Qed.

Lemma good_load_string : good load_string any.
Proof.
  eapply good_bnd; [apply good_get_int|]. intros f _. apply good_if; intros.
  { eapply good_bnd; [apply good_get_int|]. intros. apply good_any. }
  apply good_if; intros; [apply good_any|].
  eapply good_bnd; [apply good_get_int|]. intros n Hn.
  eapply good_bnd; [apply good_into; apply Hn|]. intros. apply good_any.
Qed.

Lemma good_loop ld cap count i : good ld any -> good (load_loop ld cap i count) any.
Proof.
  intros G. revert i. induction count as [|count IH]; intros i; cbn; [apply good_any|].
  eapply good_bnd; [apply G|]. intros v _. apply good_if; intros; [apply good_ub|].
  eapply good_bnd; [apply IH|]. intros. apply good_any.
Qed.

Lemma good_chars n count : forall cap i, good (load_chars n cap i count) any.
Proof.
  induction count as [|count IH]; intros cap i; cbn -[into get_int]; [apply good_any|].
  eapply good_bnd; [apply good_get_int|]. intros m Hm. apply good_if; intros; [apply good_ub|].
  eapply good_bnd; [apply good_into; apply Hm|]. intros.
  eapply good_bnd; [apply IH|]. intros. apply good_any.
Qed.

Lemma good_fields ld fs : (forall t, good (ld t) any) -> good (load_fields ld fs) any.
Proof.
  intros G. induction fs as [|t fs IH]; cbn; [apply good_any|].
  eapply good_bnd; [apply G|]. intros. eapply good_bnd; [apply IH|]. intros. apply good_any.
Qed.

Theorem good_load fuel env t : good (load fuel env t) any.
Proof.
  revert t. induction fuel as [|fuel IH]; intros t; [apply good_oof|].
  destruct t as [|k|n|n| | |sz fs|sz fs|sized n t|i]; cbn -[get_int into get_opaque load_string f_ref f_null f_opaque].
  - apply good_any.
  - eapply good_bnd; [apply good_get_int|]. intros. apply good_any.
  - eapply good_bnd; [apply good_opaque; lia|]. intros. apply good_any.
  - eapply good_bnd; [apply good_get_int|]. intros m Hm.
    eapply good_bnd; [apply good_into; apply Hm|]. intros. apply good_any.
  - eapply good_bnd; [apply good_get_int|]. intros m Hm.
    eapply good_bnd; [apply good_into; apply Hm|]. intros. apply good_any.
  - apply good_load_string.
  - eapply good_bnd; [by apply good_fields|]. intros. apply good_any.
  - eapply good_bnd; [apply good_load_string|]. intros s _. destruct s; try apply good_fail.
    destruct fs as [|p fs]; [apply good_any|]. destruct (find _ _); [|apply good_fail].
    eapply good_bnd; [apply IH|]. intros. apply good_any.
  - apply good_if; intros; [apply good_any|]. apply good_if; intros.
    + eapply good_bnd; [apply good_get_int|]. intros. apply good_if; intros; [apply good_any|].
      eapply good_bnd; [apply good_loop, IH|]. intros. apply good_any.
    + eapply good_bnd; [apply good_loop, IH|]. intros. apply good_any.
  - destruct (env !! i) as [t|]; [|apply good_fail].
    eapply good_bnd; [apply good_get_int|]. intros f _. apply good_if; intros.
    { eapply good_bnd; [apply good_get_int|]. intros. apply good_any. }
    apply good_if; intros; [apply good_any|].
    eapply good_bnd; [apply good_get_int|]. intros m Hm. apply good_if; intros.
    + apply good_if; intros; [apply good_fail|].
      eapply good_bnd; [apply good_into; apply Hm|]. intros. apply good_any.
    + apply good_if; intros; [apply good_fail|].
      assert (B : forall c k, good (let* l := load_loop (load fuel env t) c 0 k in ret (VPtrBlock f l)) any).
      { intros. eapply good_bnd; [apply good_loop, IH|]. intros. apply good_any. }
      destruct t; try apply B. eapply good_bnd; [apply good_chars|]. intros. apply good_any.
Qed.

(** ** Encoding followed by decoding *)

(** [d] decodes [w] to [a], at any position of any buffer. *)
Definition reads {A} (d : dec A) (w : list Z) (a : A) : Prop := forall p q,
  Z.of_nat (length (p ++ w ++ q)) < 2 ^ 32 ->
  d (p ++ w ++ q) (Z.of_nat (length p)) = Ok a (Z.of_nat (length p + length w)).

Lemma reads_ret {A} (a : A) : reads (ret a) [] a.
Proof. intros p q _. unfold ret. f_equal. cbn. lia. Qed.

Lemma reads_bnd {A B} (m : dec A) (k : A -> dec B) w w' a x :
  reads m w a -> reads (k a) w' x -> reads (bnd m k) (w ++ w') x.
Proof.
  intros Rm Rk p q Hl. unfold bnd. rewrite <- app_assoc in *. rewrite Rm by done.
  specialize (Rk (p ++ w) q). rewrite <- app_assoc in Rk.
  rewrite <- (app_length p w). rewrite Rk by done. f_equal. rewrite !app_length. lia.
Qed.

Lemma reads_bnd_nil {A B} (m : dec A) (k : A -> dec B) w a x :
  reads m w a -> reads (k a) [] x -> reads (bnd m k) w x.
Proof. intros. rewrite <- (app_nil_r w). by eapply reads_bnd. Qed.

Lemma reads_map {A B} (m : dec A) (f : A -> B) w a : reads m w a -> reads (bnd m (fun x => ret (f x))) w (f a).
Proof. intros. eapply reads_bnd_nil; [done|]. apply reads_ret. Qed.

Lemma reads_getbytes w : reads (getbytes (Z.of_nat (length w))) w w.
Proof.
  intros p q Hl. rewrite !app_length in Hl. rewrite getbytes_spec; rewrite ?app_length; try lia.
  match goal with |- context [?x <? ?y] => destruct (Z.ltb_spec x y) end; [lia|].
  f_equal; [|lia]. by rewrite !Nat2Z.id, drop_app, take_app.
Qed.

Lemma be32_of v : 0 <= v < 2 ^ 32 -> of_be32 (be32 v) = v.
Proof.
  intros. unfold of_be32, be32. cbn -[Z.mul Z.add Z.pow Z.div Z.modulo].
  change (2 ^ 24) with (256 * 256 * 256). change (2 ^ 16) with (256 * 256). change (2 ^ 8) with 256.
  rewrite <- !Z.div_div by lia.
  pose proof (Z.div_mod v 256). pose proof (Z.div_mod (v / 256) 256). pose proof (Z.div_mod (v / 256 / 256) 256).
  assert (0 <= v / 256 / 256 / 256 < 256).
  { rewrite !Z.div_div by lia. split; [apply Z.div_pos; lia|]. apply Z.div_lt_upper_bound; lia. }
  rewrite (Z.mod_small (v / 256 / 256 / 256)) by done. lia.
Qed.

Lemma reads_getlong v : reads getlong (putlong v) (v mod 2 ^ 32).
Proof.
  intros p q Hl. rewrite getlong_bytes by (rewrite !app_length in *; lia). revert p q Hl.
  change (reads getlong' (putlong v) (v mod 2 ^ 32)). replace (v mod 2 ^ 32) with (of_be32 (putlong v)) at 1.
  - apply (reads_map (getbytes 4)). apply (reads_getbytes (putlong v)).
  - apply be32_of. apply Z.mod_pos_bound. lia.
Qed.

Lemma reads_get64 v : 0 <= v < 2 ^ 64 -> reads get64 (put64 v) v.
Proof.
  intros. unfold get64, put64. eapply reads_bnd; [apply reads_getlong|].
  eapply reads_bnd_nil; [apply reads_getlong|].
  assert (E : v = ((v / 2 ^ 32) mod 2 ^ 32) * 2 ^ 32 + v mod 2 ^ 32).
  { rewrite (Z.mod_small (v / 2 ^ 32)).
    - pose proof (Z.div_mod v (2 ^ 32)). lia.
    - split; [apply Z.div_pos; lia|]. apply Z.div_lt_upper_bound; lia. }
  rewrite E at 3. apply reads_ret.
Qed.

Lemma sext_mod w v : 0 < w < 32 -> 0 <= v < 2 ^ w -> ((sext w v) mod 2 ^ 32) mod 2 ^ w = v.
Proof.
  intros Hw Hv.
  assert (D : (2 ^ w | 2 ^ 32)).
  { exists (2 ^ (32 - w)). rewrite <- Z.pow_add_r by lia. f_equal. lia. }
  rewrite <- Znumtheory.Zmod_div_mod; [|lia|lia|done].
  unfold sext. destruct (_ <? _); [by apply Z.mod_small|].
  replace (v - 2 ^ w) with (v + (-1) * 2 ^ w) by lia. rewrite Z.mod_add by lia. by apply Z.mod_small.
Qed.

Lemma reads_get_int k v : 0 <= v < 2 ^ bits k -> reads (get_int k) (put_int k v) v.
Proof.
  destruct k as [|[]| | |]; cbn -[Z.pow put64 putlong get64 getlong sext]; intros Hv.
  - rewrite <- (sext_mod 8 v) at 2 by lia. apply (reads_map getlong (fun x => x mod 2 ^ 8)), reads_getlong.
  - rewrite <- (sext_mod 16 v) at 2 by lia. apply (reads_map getlong (fun x => x mod 2 ^ 16)), reads_getlong.
  - assert (E : (v mod 2 ^ 32) mod 2 ^ 16 = v) by (rewrite !Z.mod_small; rewrite ?Z.mod_small; lia).
    rewrite <- E at 2. apply (reads_map getlong (fun x => x mod 2 ^ 16)), reads_getlong.
  - rewrite <- (Z.mod_small v (2 ^ 32)) at 2 by done. apply reads_getlong.
  - by apply reads_get64.
  - eapply reads_bnd; [apply reads_get64, Z.mod_pos_bound; lia|].
    eapply reads_bnd_nil; [apply reads_get64|].
    { split; [apply Z.div_pos; lia|]. apply Z.div_lt_upper_bound; lia. }
    assert (E : v = v / 2 ^ 64 * 2 ^ 64 + v mod 2 ^ 64) by (pose proof (Z.div_mod v (2 ^ 64)); lia).
    rewrite E at 3. apply reads_ret.
Qed.

Lemma reads_opaque l : reads (get_opaque (Z.of_nat (length l))) (put_opaque l) l.
Proof.
  unfold get_opaque, put_opaque. destruct (Z.eqb_spec (Z.of_nat (length l)) 0) as [E|E].
  { destruct l; [|done]. apply reads_ret. }
  eapply reads_bnd; [apply reads_getbytes|].
  pose proof (pad_len_range (Z.of_nat (length l))) as R.
  destruct (Z.eqb_spec (pad_len (Z.of_nat (length l))) 0) as [E'|E'].
  { rewrite E'. apply reads_ret. }
  eapply reads_bnd_nil; [|apply reads_ret].
  set (w := repeat 0 _). replace (pad_len _) with (Z.of_nat (length w)); [apply reads_getbytes|].
  unfold w. rewrite repeat_length. lia.
Qed.

Lemma reads_into cap l : Z.of_nat (length l) <= cap -> reads (into cap (Z.of_nat (length l))) (put_opaque l) l.
Proof.
  intros. eapply reads_bnd_nil; [apply reads_opaque|].
  destruct (Z.ltb_spec cap (Z.of_nat (length l))); [lia|]. apply reads_ret.
Qed.

(** ** Whole values *)

Definition text (l : list Z) : Prop := Forall (fun c => 0 < c < 256) l.

(** [wf env t v]: [v] is what saving an object of type [t] can produce. *)
Inductive wf (env : list ty) : ty -> val -> Prop :=
  | wf_none : wf env TNone VNone
  | wf_int k z : 0 <= z < 2 ^ bits k -> wf env (TInt k) (VInt z)
  | wf_opq l : Forall byte l -> wf env (TOpq (length l)) (VBytes l)
  | wf_chars n l : text l -> (length l <= n)%nat -> wf env (TChars n) (VBytes l)
  | wf_dyn l : text l -> wf env TDyn (VBytes l)
  | wf_str_ref f i : byte f -> f_ref f = true -> 0 <= i < 2 ^ 32 -> wf env TStr (VStrRef f i)
  | wf_str_null f : byte f -> f_ref f = false -> f_null f = true -> wf env TStr (VStrNull f)
  | wf_str f l : byte f -> f_ref f = false -> f_null f = false -> text l -> wf env TStr (VStrText f l)
  | wf_struct sz fs l : Forall2 (wf env) fs l -> wf env (TStruct sz fs) (VStruct l)
  | wf_union sz fs name t v : text name ->
      List.find (fun p => bool_decide (fst p = name)) fs = Some (name, t) -> wf env t v ->
      wf env (TUnion sz fs) (VUnion name v)
  | wf_union_empty sz : wf env (TUnion sz []) VUnionEmpty
  | wf_arr n t l : length l = n -> Forall (wf env t) l -> wf env (TArr false n t) (VArr l)
  | wf_arr_sized n t l : (length l <= n)%nat -> 0 < size_of t -> Z.of_nat (length l) * size_of t < 2 ^ 32 ->
      Forall (wf env t) l -> wf env (TArr true n t) (VArr l)
  | wf_ptr_ref j f i : is_Some (env !! j) -> byte f -> f_ref f = true -> 0 <= i < 2 ^ 32 -> wf env (TPtr j) (VPtrRef f i)
  | wf_ptr_null j f : is_Some (env !! j) -> byte f -> f_ref f = false -> f_null f = true -> wf env (TPtr j) (VPtrNull f)
  | wf_ptr_opaque j f l : is_Some (env !! j) -> byte f -> f_ref f = false -> f_null f = false -> f_opaque f = true ->
      Forall byte l -> l <> [] -> wf env (TPtr j) (VPtrOpaque f l)
  | wf_ptr_block j f l t : env !! j = Some t -> byte f -> f_ref f = false -> f_null f = false -> f_opaque f = false ->
      (forall n, t <> TChars n) -> 0 < size_of t -> l <> [] -> Z.of_nat (length l) * size_of t < 2 ^ 32 ->
      Forall (wf env t) l -> wf env (TPtr j) (VPtrBlock f l)
  | wf_ptr_zero j f v t : env !! j = Some t -> byte f -> f_ref f = false -> f_null f = false -> f_opaque f = false ->
      (forall n, t <> TChars n) -> size_of t = 0 -> wf env t v -> wf env (TPtr j) (VPtrBlock f [v])
  | wf_ptr_chars j f n l : env !! j = Some (TChars n) -> byte f -> f_ref f = false -> f_null f = false -> f_opaque f = false ->
      (0 < n)%nat -> Z.of_nat n < 2 ^ 32 -> text l -> wf env (TPtr j) (VPtrBlock f [VBytes l]).

(** Depth of the recursion of the decoder. *)
Fixpoint height (v : val) : nat :=
  match v with
  | VStruct l | VArr l | VPtrBlock _ l => S (list_max (map height l))
  | VUnion _ v => S (height v)
  | _ => 1%nat
  end.

Lemma val_ind' (P : val -> Prop) :
  P VNone -> (forall z, P (VInt z)) -> (forall l, P (VBytes l)) ->
  (forall f i, P (VStrRef f i)) -> (forall f, P (VStrNull f)) -> (forall f l, P (VStrText f l)) ->
  (forall l, Forall P l -> P (VStruct l)) -> (forall n v, P v -> P (VUnion n v)) -> P VUnionEmpty ->
  (forall l, Forall P l -> P (VArr l)) ->
  (forall f i, P (VPtrRef f i)) -> (forall f, P (VPtrNull f)) -> (forall f l, P (VPtrOpaque f l)) ->
  (forall f l, Forall P l -> P (VPtrBlock f l)) -> forall v, P v.
Proof.
  intros H1 H2 H3 H4 H5 H6 H7 H8 H9 H10 H11 H12 H13 H14. fix IH 1. intros [].
  - apply H1. - apply H2. - apply H3. - apply H4. - apply H5. - apply H6.
  - apply H7. induction l; constructor; [apply IH|done].
  - apply H8, IH. - apply H9.
  - apply H10. induction l; constructor; [apply IH|done].
  - apply H11. - apply H12. - apply H13.
  - apply H14. induction l; constructor; [apply IH|done].
Qed.

Lemma until_nul_text l r : text l -> until_nul (l ++ 0 :: r) = l.
Proof.
  induction 1 as [|c l Hc _ IH]; [done|]. cbn. destruct (Z.eqb_spec c 0); [lia|]. by rewrite IH.
Qed.
Lemma until_nul_all l : text l -> until_nul l = l.
Proof.
  induction 1 as [|c l Hc _ IH]; [done|]. cbn. destruct (Z.eqb_spec c 0); [lia|]. by rewrite IH.
Qed.

(** A decoder that works when its input fits in the buffer. *)
Lemma reads_when {A} (d : dec A) w a : (Z.of_nat (length w) < 2 ^ 32 -> reads d w a) -> reads d w a.
Proof. intros R p q Hl. apply R; [|done]. rewrite !app_length in Hl. lia. Qed.

Lemma put_opaque_length l : (length l <= length (put_opaque l))%nat.
Proof. unfold put_opaque. rewrite app_length. lia. Qed.

(** A length word followed by the bytes. *)
Lemma reads_sized {B} (cap : Z -> Z) (k : list Z -> B) l :
  (Z.of_nat (length l) < 2 ^ 32 - 1 -> Z.of_nat (length l) <= cap (Z.of_nat (length l))) ->
  reads (let* m := get_int I32 in let* x := into (cap m) m in ret (k x))
    (put_int I32 (Z.of_nat (length l)) ++ put_opaque l) (k l).
Proof.
  intros Hc. apply reads_when. intros Hl. rewrite app_length in Hl. pose proof (put_opaque_length l).
  change (length (put_int I32 _)) with 4%nat in Hl.
  eapply reads_bnd; [apply reads_get_int; cbn; lia|]. cbn beta.
  apply (reads_map (into _ _) k), reads_into, Hc. lia.
Qed.

Lemma reads_string f l : byte f -> f_ref f = false -> f_null f = false -> text l ->
  reads load_string (put_string f l) (VStrText f l).
Proof.
  intros Hf Hr Hn Ht. unfold load_string, put_string.
  eapply reads_bnd; [by apply reads_get_int|]. cbn beta. rewrite Hr, Hn.
  rewrite <- (until_nul_all l) at 3 by done.
  apply (reads_sized (fun n => u32 (n + 1)) (fun x => VStrText f (until_nul x))).
  intros. rewrite u32_small; lia.
Qed.

Lemma reads_loop ld enc (l : list val) cap i :
  Forall (fun v => reads ld (enc v) v) l -> i + Z.of_nat (length l) <= cap ->
  reads (load_loop ld (Some cap) i (length l)) (concat (map enc l)) l.
Proof.
  intros F. revert i. induction F as [|v l Hv _ IH]; intros i Hi; [apply reads_ret|].
  cbn. eapply reads_bnd; [apply Hv|]. cbn in Hi. destruct (Z.leb_spec cap i); [lia|].
  apply (reads_map (load_loop ld (Some cap) (i + 1) (length l)) (fun x => v :: x)), IH. lia.
Qed.

Lemma list_max_in (l : list nat) x : In x l -> (x <= list_max l)%nat.
Proof.
  intros H. pose proof (proj1 (list_max_le l (list_max l)) (le_n _)) as F.
  rewrite List.Forall_forall in F. by apply F.
Qed.

Lemma height_in v l : In v l -> (height v <= list_max (map height l))%nat.
Proof. intros H. apply list_max_in. by apply in_map. Qed.

Theorem reads_load env v : forall t fuel, wf env t v -> (height v <= fuel)%nat ->
  reads (load fuel env t) (save env t v) v.
Proof.
  induction v as [|z|l|f i|f|f l|l IH|name v IH| |l IH|f i|f|f l|f l IH] using val_ind'; intros t fuel W Hf;
    (destruct fuel as [|fuel]; [cbn in Hf; lia|]);
    inversion W; subst; cbn -[get_int put_int into get_opaque put_opaque load_string put_string chars_bytes Z.mul f_ref f_null f_opaque]; clear W.
  - apply reads_ret.
  - apply (reads_map (get_int k) VInt). by apply reads_get_int.
  - apply (reads_map (get_opaque _) VBytes). apply reads_opaque.
  - (* fixed char array *)
    unfold chars_bytes. destruct (Nat.ltb_spec (length l) n) as [L|L].
    + rewrite <- (until_nul_text l []) at 3 by done.
      apply (reads_sized (fun _ => Z.of_nat n) (fun x => VBytes (until_nul x))).
      intros _. rewrite app_length. cbn. lia.
    + rewrite <- (until_nul_all l) at 3 by done.
      apply (reads_sized (fun _ => Z.of_nat n) (fun x => VBytes (until_nul x))). lia.
  - rewrite <- (until_nul_text l []) at 3 by done.
    replace (Z.of_nat (length l) + 1) with (Z.of_nat (length (l ++ [0]))) by (rewrite app_length; cbn; lia).
    apply (reads_sized (fun m => if 1 <? m then m else 1) (fun x => VBytes (until_nul x))).
    intros _. rewrite app_length. cbn. destruct (Z.ltb_spec 1 (Z.of_nat (length l + 1))); lia.
  - unfold load_string. eapply reads_bnd; [by apply reads_get_int|]. cbn beta.
    match goal with H : f_ref f = true |- _ => rewrite H end.
    apply (reads_map (get_int I32) (VStrRef f)). by apply reads_get_int.
  - unfold load_string. eapply reads_bnd_nil; [by apply reads_get_int|]. cbn beta.
    repeat match goal with H : f_ref f = false |- _ => rewrite H | H : f_null f = true |- _ => rewrite H end.
    cbv iota. apply reads_ret.
  - by apply reads_string.
  - (* struct *)
    match goal with H : Forall2 _ _ _ |- _ => rename H into F end.
    apply (reads_map (load_fields _ fs) VStruct). cbn -[list_max] in Hf.
    revert IH Hf. induction F as [|t v fs l Wv F IHF]; intros IH Hf; [apply reads_ret|].
    apply Forall_cons in IH as [IHv IH].
    change (list_max (map height (v :: l))) with (Nat.max (height v) (list_max (map height l))) in Hf. cbn.
    eapply reads_bnd; [apply IHv; [done|lia]|].
    apply (reads_map (load_fields _ fs) (fun x => v :: x)). apply IHF; [done|lia].
  - (* union *)
    eapply reads_bnd; [apply reads_string; [unfold byte; lia|done|done|done]|]. cbn beta iota.
    match goal with H : find _ _ = _ |- _ => rename H into Ef end.
    destruct fs as [|p fs]; [done|]. rewrite Ef. cbn [snd].
    apply (reads_map (load fuel env t0) (VUnion name)). apply IH; [done|]. cbn in Hf. lia.
  - eapply reads_bnd_nil; [apply reads_string; [unfold byte; lia|done|done|constructor]|]. cbn. apply reads_ret.
  - (* one dimension of a multi-dimensional or not persistent array *)
    assert (F : Forall (fun v => reads (load fuel env t0) (save env t0 v) v) l).
    { rewrite List.Forall_forall in *. intros v Hv. cbn in Hf. apply IH; [done|by auto|]. pose proof (height_in v l Hv). lia. }
    destruct (Nat.eqb_spec (length l) 0) as [E|E].
    { destruct l; [|done]. apply reads_ret. }
    apply (reads_map (load_loop _ _ _ _) VArr). by apply (reads_loop _ (save env t0)).
  - (* resizable array *)
    match goal with H : Forall (wf _ _) _ |- _ => rename H into Fw end.
    assert (F : Forall (fun v => reads (load fuel env t0) (save env t0 v) v) l).
    { rewrite List.Forall_forall in *. intros v Hv. cbn in Hf. apply IH; [done|by auto|]. pose proof (height_in v l Hv). lia. }
    destruct (Nat.eqb_spec n 0) as [E|E]; cbn -[get_int put_int Z.mul].
    { destruct l; [|cbn in *; lia]. apply reads_ret. }
    eapply reads_bnd; [apply reads_get_int; cbn -[Z.mul Z.pow]; lia|]. cbn beta.
    destruct (Z.eqb_spec (size_of t0) 0); [lia|].
    rewrite Z.div_mul by lia. rewrite Nat2Z.id.
    apply (reads_map (load_loop _ _ _ _) VArr). apply (reads_loop _ (save env t0)); [done|lia].
  - match goal with H : is_Some _ |- _ => destruct H as [tj ->] end.
    eapply reads_bnd; [by apply reads_get_int|]. cbn beta.
    match goal with H : f_ref f = true |- _ => rewrite H end.
    apply (reads_map (get_int I32) (VPtrRef f)). by apply reads_get_int.
  - match goal with H : is_Some _ |- _ => destruct H as [tj ->] end.
    eapply reads_bnd_nil; [by apply reads_get_int|]. cbn beta.
    repeat match goal with H : f_ref f = false |- _ => rewrite H | H : f_null f = true |- _ => rewrite H end.
    cbv iota. apply reads_ret.
  - (* opaque block *)
    match goal with H : is_Some _ |- _ => destruct H as [tj ->] end.
    eapply reads_bnd; [by apply reads_get_int|]. cbn beta.
    repeat match goal with H : f_ref f = _ |- _ => rewrite H | H : f_null f = _ |- _ => rewrite H | H : f_opaque f = _ |- _ => rewrite H end. cbv iota.
    apply reads_when. intros Hl. rewrite app_length in Hl. pose proof (put_opaque_length l).
    eapply reads_bnd; [apply reads_get_int; cbn -[Z.pow]; lia|]. cbn beta.
    destruct (Z.leb_spec (Z.of_nat (length l)) 0); [destruct l; cbn in *; [done|lia]|].
    apply (reads_map (into _ _) (VPtrOpaque f)). apply reads_into. lia.
  - (* block of elements *)
    match goal with H : env !! j = Some _ |- _ => rewrite H end.
    match goal with H : Forall (wf _ _) _ |- _ => rename H into Fw end.
    match goal with H : forall n, t0 <> _ |- _ => rename H into Nc end.
    assert (Ep : pointee t0 = t0) by (destruct t0; try done; by destruct (Nc n)).
    assert (F : Forall (fun v => reads (load fuel env t0) (save env t0 v) v) l).
    { rewrite List.Forall_forall in *. intros v Hv. cbn in Hf. apply IH; [done|by auto|]. pose proof (height_in v l Hv). lia. }
    eapply reads_bnd; [by apply reads_get_int|]. cbn beta.
    repeat match goal with H : f_ref f = _ |- _ => rewrite H | H : f_null f = _ |- _ => rewrite H | H : f_opaque f = _ |- _ => rewrite H end. cbv iota.
    destruct (Z.eqb_spec (size_of t0) 0); [lia|].
    eapply reads_bnd; [apply reads_get_int; cbn -[Z.mul Z.pow]; lia|]. cbn beta.
    destruct (Z.ltb_spec 0 (size_of t0)); [|lia]. rewrite Z.div_mul by lia. rewrite Nat2Z.id, Ep.
    destruct (Z.leb_spec (Z.of_nat (length l) * size_of t0) 0).
    { assert (0 < Z.of_nat (length l)) by (destruct l; cbn in *; [done|lia]). lia. }
    assert (R : reads (let* x := load_loop (load fuel env t0) (Some (Z.of_nat (length l))) 0 (length l) in ret (VPtrBlock f x))
      (concat (map (save env t0) l)) (VPtrBlock f l)).
    { apply (reads_map (load_loop _ _ _ _) (VPtrBlock f)). apply (reads_loop _ (save env t0)); [done|lia]. }
    destruct t0; try apply R. by destruct (Nc n0).
  - (* block of one element of size zero *)
    match goal with H : env !! j = Some _ |- _ => rewrite H end.
    match goal with H : forall n, t0 <> _ |- _ => rename H into Nc end.
    assert (Ep : pointee t0 = t0) by (destruct t0; try done; by destruct (Nc n)).
    eapply reads_bnd; [by apply reads_get_int|]. cbn beta.
    repeat match goal with H : f_ref f = _ |- _ => rewrite H | H : f_null f = _ |- _ => rewrite H | H : f_opaque f = _ |- _ => rewrite H end. cbv iota.
    match goal with H : size_of t0 = 0 |- _ => rename H into Ez end. rewrite Ez, Ep. cbn [Z.eqb Z.ltb Z.compare].
    eapply reads_bnd; [apply reads_get_int; cbn -[Z.pow]; lia|]. cbn beta.
    assert (R : reads (let* x := load_loop (load fuel env t0) (Some 1) 0 1 in ret (VPtrBlock f x))
      (concat (map (save env t0) [v])) (VPtrBlock f [v])).
    { apply (reads_map (load_loop _ _ _ _) (VPtrBlock f)). apply (reads_loop _ (save env t0) [v] 1 0); [|cbn; lia].
      apply Forall_singleton. apply Forall_cons in IH as [IH _]. apply IH; [done|]. cbn in Hf. lia. }
    destruct t0; try apply R. by destruct (Nc n).
  - (* pointer to one char array *)
    match goal with H : env !! j = Some _ |- _ => rewrite H end.
    eapply reads_bnd; [by apply reads_get_int|]. cbn beta.
    repeat match goal with H : f_ref f = _ |- _ => rewrite H | H : f_null f = _ |- _ => rewrite H | H : f_opaque f = _ |- _ => rewrite H end. cbv iota.
    cbn [size_of pointee map save length].
    destruct (Z.eqb_spec (Z.of_nat n) 0); [lia|].
    eapply reads_bnd; [apply reads_get_int; cbn -[Z.mul Z.pow]; lia|]. cbn beta.
    destruct (Z.ltb_spec 0 (Z.of_nat n)); [|lia]. rewrite Z.div_mul by lia.
    destruct (Z.leb_spec (Z.of_nat 1 * Z.of_nat n) 0); [lia|].
    apply (reads_map (load_chars _ _ _ _) (VPtrBlock f)).
    cbn [concat map save].
    rename l0 into l. change (Z.to_nat (Z.of_nat 1)) with 1%nat. cbn [load_chars]. rewrite app_nil_r.
    replace (Z.of_nat (length l) + 1) with (Z.of_nat (length (l ++ [0]))) by (rewrite app_length; cbn; lia).
    apply reads_when. intros Hl. rewrite app_length in Hl. pose proof (put_opaque_length (l ++ [0])).
    eapply reads_bnd; [apply reads_get_int; cbn -[Z.pow length]; lia|]. cbn beta.
    change (0 <? 0) with false. rewrite andb_false_r. cbv iota zeta.
    eapply reads_bnd_nil; [apply reads_into|].
    { rewrite app_length in *. cbn [length] in *. destruct (Z.ltb_spec 1 (Z.of_nat (length l + 1))); lia. }
    cbn beta. rewrite until_nul_text by done.
    apply (reads_map (ret []) (fun r => VBytes l :: r)), reads_ret.
Qed.

(** ** Arbitrary input: no undefined behaviour *)

Definition noub {A} (d : dec A) : Prop := forall b h, inb b h -> d b h <> UB.

Lemma noub_ret {A} (a : A) : noub (ret a).
Proof. by intros b h _. Qed.
Lemma noub_fail {A} : noub (@fail A).
Proof. by intros b h _. Qed.
Lemma noub_if {A} (c : bool) (d e : dec A) : (c = true -> noub d) -> (c = false -> noub e) -> noub (if c then d else e).
Proof. destruct c; auto. Qed.

Lemma inb_step {A} (d : dec A) P b h a h' : good d P -> inb b h -> d b h = Ok a h' -> P a /\ inb b h' /\ h <= h'.
Proof.
  intros G Hi E. destruct (G _ _ _ _ Hi E) as (Pa & L & _). destruct Hi as (By & Hb & Hh).
  split; [done|]. split; [split; [done|lia]|lia].
Qed.

Lemma noub_bnd {A B} (m : dec A) P (k : A -> dec B) :
  good m P -> noub m -> (forall a, P a -> noub (k a)) -> noub (bnd m k).
Proof.
  intros G N K b h Hi. unfold bnd. destruct (m b h) as [a h'| | |] eqn:E; try done.
  - destruct (inb_step _ _ _ _ _ _ G Hi E) as (Pa & Hi' & _). by apply K.
  - by destruct (N b h Hi).
Qed.

Lemma noub_getbytes n : 0 <= n -> noub (getbytes n).
Proof.
  intros Hn b h (By & Hb & Hh). rewrite getbytes_spec by lia. by destruct (_ <? n).
Qed.

Lemma noub_getlong : noub getlong.
Proof.
  intros b h Hi. rewrite getlong_bytes by apply Hi. revert b h Hi. change (noub getlong').
  eapply noub_bnd; [by apply good_getbytes|by apply noub_getbytes|]. intros. apply noub_ret.
Qed.

Lemma noub_get64 : noub get64.
Proof.
  eapply noub_bnd; [apply good_getlong|apply noub_getlong|]. intros.
  eapply noub_bnd; [apply good_getlong|apply noub_getlong|]. intros. apply noub_ret.
Qed.

Lemma noub_get_int k : noub (get_int k).
Proof.
  destruct k; cbn -[get64 getlong].
  - eapply noub_bnd; [apply good_getlong|apply noub_getlong|]. intros. apply noub_ret.
  - eapply noub_bnd; [apply good_getlong|apply noub_getlong|]. intros. apply noub_ret.
  - apply noub_getlong.
  - apply noub_get64.
  - eapply noub_bnd; [apply good_get64|apply noub_get64|]. intros.
    eapply noub_bnd; [apply good_get64|apply noub_get64|]. intros. apply noub_ret.
Qed.

Lemma noub_opaque n : 0 <= n -> noub (get_opaque n).
Proof.
  intros. unfold get_opaque. apply noub_if; intros; [apply noub_ret|].
  eapply noub_bnd; [by apply good_getbytes|by apply noub_getbytes|]. intros.
  apply noub_if; intros; [apply noub_ret|].
  eapply noub_bnd; [apply good_getbytes, pad_len_range|apply noub_getbytes, pad_len_range|]. intros. apply noub_ret.
Qed.

Lemma noub_into cap n : 0 <= n <= cap -> noub (into cap n).
Proof.
  intros. eapply noub_bnd; [apply good_opaque; lia|apply noub_opaque; lia|]. intros.
  apply noub_if; intros E; [lia|apply noub_ret].
Qed.

Lemma getlong_step b h v h' : inb b h -> getlong b h = Ok v h' -> h' = h + 4.
Proof.
  intros (By & Hb & Hh). rewrite getlong_bytes by lia. unfold getlong', bnd. rewrite getbytes_spec by lia.
  destruct (_ <? 4); [done|]. by intros [= _ <-].
Qed.

(** [calloc (size + 1)] wraps to zero for size 2^32 - 1, but no stream has that
    many bytes behind the size itself. *)
Lemma noub_load_string : noub load_string.
Proof.
  eapply noub_bnd; [apply good_get_int|apply noub_get_int|]. intros f _.
  apply noub_if; intros.
  { eapply noub_bnd; [apply good_get_int|apply noub_get_int|]. intros. apply noub_ret. }
  apply noub_if; intros; [apply noub_ret|].
  intros b h Hi. change (get_int I32) with getlong. unfold bnd at 1.
  destruct (getlong b h) as [n h'| | |] eqn:E; try done; [|by destruct (noub_getlong b h Hi)].
  destruct (inb_step _ _ _ _ _ _ good_getlong Hi E) as (Hn & Hi' & _).
  pose proof (getlong_step _ _ _ _ Hi E) as ->. unfold below in Hn.
  destruct (Z.eq_dec n (2 ^ 32 - 1)) as [->|Hne].
  - destruct Hi as (By & Hb & Hh). destruct Hi' as (_ & _ & Hh').
    unfold bnd, into, get_opaque, bnd. change (2 ^ 32 - 1 =? 0) with false. cbv iota beta.
    rewrite getbytes_spec by lia.
    match goal with |- context [?x <? ?y] => destruct (Z.ltb_spec x y) end; [done|lia].
  - revert b h Hi E Hi'. intros b h _ _ Hi'.
    assert (N : noub (let* l := into (u32 (n + 1)) n in ret (VStrText f (until_nul l)))).
    { eapply noub_bnd; [apply good_into; lia|apply noub_into; rewrite u32_small; lia|]. intros. apply noub_ret. }
    by apply N.
Qed.

Lemma noub_loop ld cap count i : good ld any -> noub ld -> i + Z.of_nat count <= cap ->
  noub (load_loop ld (Some cap) i count).
Proof.
  intros G N. revert i. induction count as [|count IH]; intros i Hi; cbn; [apply noub_ret|].
  eapply noub_bnd; [apply G|apply N|]. intros v _. destruct (Z.leb_spec cap i); [lia|].
  eapply noub_bnd; [by apply good_loop|apply IH; lia|]. intros. apply noub_ret.
Qed.

Lemma noub_fields ld fs : (forall t, good (ld t) any) -> (forall t, In t fs -> noub (ld t)) -> noub (load_fields ld fs).
Proof.
  intros G. induction fs as [|t fs IH]; intros N; cbn; [apply noub_ret|].
  eapply noub_bnd; [apply G|apply N; by left|]. intros.
  eapply noub_bnd; [by apply good_fields|apply IH; intros; apply N; by right|]. intros. apply noub_ret.
Qed.

(** Types without char arrays of a fixed size and arrays with a size in the stream. *)
Fixpoint unsized (t : ty) : bool :=
  match t with
  | TChars _ => false
  | TArr sized _ t => negb sized && unsized t
  | TStruct _ fs => forallb unsized fs
  | TUnion _ fs => forallb (fun p => unsized (snd p)) fs
  | _ => true
  end.

Theorem noub_load env : Forall (fun t => unsized t = true) env ->
  forall fuel t, unsized t = true -> noub (load fuel env t).
Proof.
  intros He. induction fuel as [|fuel IH]; intros t Ht; [by intros b h _|].
  pose proof (good_load fuel env) as G.
  destruct t as [|k|n|n| | |sz fs|sz fs|sized n t|i]; cbn -[get_int into get_opaque load_string f_ref f_null f_opaque]; cbn in Ht.
  - apply noub_ret.
  - eapply noub_bnd; [apply good_get_int|apply noub_get_int|]. intros. apply noub_ret.
  - eapply noub_bnd; [apply good_opaque; lia|apply noub_opaque; lia|]. intros. apply noub_ret.
  - done.
  - eapply noub_bnd; [apply good_get_int|apply noub_get_int|]. intros m Hm. unfold below in Hm.
    assert (0 <= m <= if 1 <? m then m else 1) by (destruct (Z.ltb_spec 1 m); lia).
    eapply noub_bnd; [apply good_into; lia|by apply noub_into|]. intros. apply noub_ret.
  - apply noub_load_string.
  - eapply noub_bnd; [by apply good_fields| |intros; apply noub_ret].
    apply noub_fields; [done|]. intros t Hin. apply IH. rewrite forallb_forall in Ht. by apply Ht.
  - eapply noub_bnd; [apply good_load_string|apply noub_load_string|]. intros s _. destruct s; try apply noub_fail.
    destruct fs as [|p fs]; [apply noub_ret|]. destruct (find _ _) as [q|] eqn:E; [|apply noub_fail].
    eapply noub_bnd; [apply G| |intros; apply noub_ret]. apply IH.
    apply find_some in E as [E _]. rewrite forallb_forall in Ht. by apply (Ht q).
  - apply andb_prop in Ht as [Hs Ht]. destruct sized; [done|].
    apply noub_if; intros; [apply noub_ret|].
    eapply noub_bnd; [by apply good_loop|apply noub_loop; [done|by apply IH|lia]|]. intros. apply noub_ret.
  - destruct (env !! i) as [t|] eqn:Ei; [|apply noub_fail].
    assert (Hu : unsized t = true) by (by apply (Forall_lookup_1 _ _ _ _ He Ei)).
    eapply noub_bnd; [apply good_get_int|apply noub_get_int|]. intros f _. apply noub_if; intros.
    { eapply noub_bnd; [apply good_get_int|apply noub_get_int|]. intros. apply noub_ret. }
    apply noub_if; intros; [apply noub_ret|].
    eapply noub_bnd; [apply good_get_int|apply noub_get_int|]. intros m Hm. unfold below in Hm. apply noub_if; intros.
    + apply noub_if; intros; [apply noub_fail|].
      eapply noub_bnd; [apply good_into; lia|apply noub_into; lia|]. intros. apply noub_ret.
    + apply noub_if; intros; [apply noub_fail|].
      assert (B : forall c, 0 <= c -> noub (let* l := load_loop (load fuel env t) (Some c) 0 (Z.to_nat c) in ret (VPtrBlock f l))).
      { intros c Hc. eapply noub_bnd; [by apply good_loop|apply noub_loop; [done|by apply IH|lia]|]. intros. apply noub_ret. }
      assert (0 <= if 0 <? size_of t then m / size_of t else 1).
      { destruct (Z.ltb_spec 0 (size_of t)); [apply Z.div_pos; lia|lia]. }
      destruct t; try by apply B. done.
Qed.

(** ** Arbitrary input: termination *)

Fixpoint tdepth (t : ty) : nat :=
  match t with
  | TStruct _ fs => S (list_max (map tdepth fs))
  | TUnion _ fs => S (list_max (map (fun p => tdepth (snd p)) fs))
  | TArr _ _ t => S (tdepth t)
  | _ => 0%nat
  end.

(** [d] does not run out of fuel at positions from [h0] on. *)
Definition ends {A} (d : dec A) (b : list Z) (h0 : Z) : Prop := forall h, inb b h -> h0 <= h -> d b h <> Oof.

Lemma ends_bnd {A B} (m : dec A) P (k : A -> dec B) b h0 :
  good m P -> ends m b h0 -> (forall a, ends (k a) b h0) -> ends (bnd m k) b h0.
Proof.
  intros G N K h Hi Hh. unfold bnd. destruct (m b h) as [a h'| | |] eqn:E; try done.
  - destruct (inb_step _ _ _ _ _ _ G Hi E) as (_ & Hi' & Hle). apply K; [done|lia].
  - by destruct (N h Hi Hh).
Qed.

(** The basic decoders are total. *)
Lemma bnd_noof {A B} (m : dec A) (k : A -> dec B) : (forall b h, m b h <> Oof) -> (forall a b h, k a b h <> Oof) ->
  forall b h, bnd m k b h <> Oof.
Proof. intros N K b h. unfold bnd. specialize (N b h). by destruct (m b h). Qed.
Lemma getbytes_noof n b h : getbytes n b h <> Oof.
Proof. unfold getbytes. destruct (_ <? n); [done|]. by destruct (peek _ _ _). Qed.
Lemma getlong_noof b h : getlong b h <> Oof.
Proof. unfold getlong. destruct (_ <? 4); [done|]. by destruct (peek _ _ _). Qed.
Lemma get64_noof b h : get64 b h <> Oof.
Proof. apply bnd_noof; [apply getlong_noof|]. intros a. apply bnd_noof; [apply getlong_noof|done]. Qed.
Lemma get_int_noof k b h : get_int k b h <> Oof.
Proof.
  destruct k; cbn -[getlong get64].
  - apply bnd_noof; [apply getlong_noof|done].
  - apply bnd_noof; [apply getlong_noof|done].
  - apply getlong_noof.
  - apply get64_noof.
  - apply bnd_noof; [apply get64_noof|]. intros a. apply bnd_noof; [apply get64_noof|done].
Qed.
Lemma opaque_noof n b h : get_opaque n b h <> Oof.
Proof.
  unfold get_opaque. destruct (n =? 0); [done|]. apply bnd_noof; [apply getbytes_noof|]. intros a b' h'.
  destruct (pad_len n =? 0); [done|]. apply bnd_noof; [apply getbytes_noof|done].
Qed.
Lemma into_noof c n b h : into c n b h <> Oof.
Proof. apply bnd_noof; [apply opaque_noof|]. intros a b' h'. by destruct (c <? n). Qed.
Lemma load_string_noof b h : load_string b h <> Oof.
Proof.
  apply bnd_noof; [apply get_int_noof|]. intros f b' h'. destruct (f_ref f).
  { apply bnd_noof; [apply get_int_noof|done]. }
  destruct (f_null f); [done|]. apply bnd_noof; [apply get_int_noof|]. intros n.
  apply bnd_noof; [apply into_noof|done].
Qed.
Lemma chars_noof n count : forall cap i b h, load_chars n cap i count b h <> Oof.
Proof.
  induction count as [|count IH]; intros cap i; cbn -[get_int into]; [done|].
  apply bnd_noof; [apply get_int_noof|]. intros m b h. destruct (_ && _); [done|].
  apply bnd_noof; [apply into_noof|]. intros l. apply bnd_noof; [apply IH|done].
Qed.

Lemma ends_loop ld cap count i b h0 : good ld any -> ends ld b h0 -> ends (load_loop ld cap i count) b h0.
Proof.
  intros G N. revert i. induction count as [|count IH]; intros i; cbn; [by intros h _ _|].
  eapply ends_bnd; [apply G|apply N|]. intros v. destruct (match cap with Some c => c <=? i | None => false end); [by intros h _ _|].
  eapply ends_bnd; [by apply good_loop|apply IH|]. by intros a h _ _.
Qed.

Lemma ends_fields ld fs b h0 : (forall t, good (ld t) any) -> (forall t, In t fs -> ends (ld t) b h0) ->
  ends (load_fields ld fs) b h0.
Proof.
  intros G. induction fs as [|t fs IH]; intros N; cbn; [by intros h _ _|].
  eapply ends_bnd; [apply G|apply N; by left|]. intros v.
  eapply ends_bnd; [by apply good_fields|apply IH; intros; apply N; by right|]. by intros a h _ _.
Qed.

Lemma ends_mono {A} (d : dec A) b h0 h1 : ends d b h0 -> h0 <= h1 -> ends d b h1.
Proof. intros N L h Hi Hh. apply N; [done|lia]. Qed.

Theorem ends_load env D : Forall (fun t => (tdepth t <= D)%nat) env ->
  forall fuel t b h, inb b h ->
  Z.of_nat (tdepth t) + (Z.of_nat D + 1) * (Z.of_nat (length b) - h) < Z.of_nat fuel ->
  ends (load fuel env t) b h.
Proof.
  intros He. induction fuel as [|fuel IH]; intros t b h Hi Hf.
  { destruct Hi as (_ & _ & Hh). nia. }
  pose proof (good_load fuel env) as G.
  destruct t as [|k|n|n| | |sz fs|sz fs|sized n t|i]; cbn -[get_int into get_opaque load_string f_ref f_null f_opaque]; cbn -[list_max Z.of_nat] in Hf.
  - by intros h' _ _.
  - intros h' _ _. apply bnd_noof; [apply get_int_noof|done].
  - intros h' _ _. apply bnd_noof; [apply opaque_noof|done].
  - intros h' _ _. apply bnd_noof; [apply get_int_noof|]. intros m. apply bnd_noof; [apply into_noof|done].
  - intros h' _ _. apply bnd_noof; [apply get_int_noof|]. intros m. apply bnd_noof; [apply into_noof|done].
  - intros h' _ _. apply load_string_noof.
  - eapply ends_bnd; [by apply good_fields| |by intros a h' _ _].
    apply ends_fields; [done|]. intros t Hin. apply IH; [done|].
    pose proof (list_max_in (map tdepth fs) (tdepth t) (in_map _ _ _ Hin)). lia.
  - eapply ends_bnd; [apply good_load_string|intros h' _ _; apply load_string_noof|]. intros s. destruct s; try by intros h' _ _.
    destruct fs as [|p fs]; [by intros h' _ _|]. destruct (find _ _) as [q|] eqn:E; [|by intros h' _ _].
    eapply ends_bnd; [apply G| |by intros a h' _ _]. apply IH; [done|].
    apply find_some in E as [E _].
    pose proof (list_max_in (map (fun p => tdepth (snd p)) (p :: fs)) (tdepth (snd q)) (in_map (fun p => tdepth (snd p)) _ _ E)). lia.
  - destruct (Nat.eqb n 0); [by intros h' _ _|].
    assert (N : ends (load fuel env t) b h) by (apply IH; [done|lia]).
    destruct sized.
    + eapply ends_bnd; [apply good_get_int|intros h' _ _; apply get_int_noof|]. intros m.
      destruct (size_of t =? 0); [by intros h' _ _|].
      eapply ends_bnd; [by apply good_loop|by apply ends_loop|]. by intros a h' _ _.
    + eapply ends_bnd; [by apply good_loop|by apply ends_loop|]. by intros a h' _ _.
  - destruct (env !! i) as [t|] eqn:Ei; [|by intros h' _ _].
    assert (Hd : (tdepth t <= D)%nat) by (by apply (Forall_lookup_1 _ _ _ _ He Ei)).
    intros h1 Hi1 Hle. unfold bnd at 1. cbn [get_int]. unfold bnd at 1.
    destruct (getlong b h1) as [f h2| | |] eqn:E2; try done; [|by destruct (getlong_noof b h1)].
    destruct (inb_step _ _ _ _ _ _ good_getlong Hi1 E2) as (_ & Hi2 & _).
    pose proof (getlong_step _ _ _ _ Hi1 E2) as ->. unfold ret at 1. cbv iota beta.
    assert (N : ends (load fuel env t) b (h1 + 4)).
    { apply IH; [done|]. destruct Hi2 as (_ & _ & Hh2). nia. }
    match goal with |- (if f_ref ?g then _ else _) _ _ <> _ => set (g' := g); destruct (f_ref g') end.
    { apply bnd_noof; [apply getlong_noof|done]. }
    destruct (f_null g'); [done|].
    match goal with |- ?d b (h1 + 4) <> Oof => assert (K : ends d b (h1 + 4)); [|by apply K; [done|lia]] end.
    eapply ends_bnd; [apply good_getlong|intros h' _ _; apply getlong_noof|]. intros m.
    destruct (f_opaque g').
    + destruct (m <=? 0); [by intros h' _ _|]. intros h' _ _. apply bnd_noof; [apply into_noof|done].
    + destruct (_ <=? 0); [by intros h' _ _|].
      assert (B : forall c k, ends (let* l := load_loop (load fuel env t) c 0 k in ret (VPtrBlock g' l)) b (h1 + 4)).
      { intros. eapply ends_bnd; [by apply good_loop|by apply ends_loop|]. by intros a h' _ _. }
      destruct t; try apply B. intros h' _ _. apply bnd_noof; [apply chars_noof|done].
Qed.

(** ** Accepted input is a value of the type *)

Lemma size_of_nonneg t : 0 <= size_of t.
Proof.
  induction t as [|k|n|n| | |s fs|s fs|sized n t IH|i]; cbn -[Z.div Z.mul]; try lia.
  destruct k; cbn; lia.
Qed.

(** No resizable arrays of elements of size zero. *)
Fixpoint plain (t : ty) : bool :=
  match t with
  | TArr sized _ t => (negb sized || (0 <? size_of t)) && plain t
  | TStruct _ fs => forallb plain fs
  | TUnion _ fs => forallb (fun p => plain (snd p)) fs
  | _ => true
  end.

Lemma until_nul_is_text l : Forall byte l -> text (until_nul l) /\ (length (until_nul l) <= length l)%nat.
Proof.
  induction 1 as [|c l Hc _ [IH IL]]; cbn; [split; [constructor|lia]|].
  destruct (Z.eqb_spec c 0); cbn; [split; [constructor|lia]|].
  split; [|lia]. constructor; [|done]. unfold byte in Hc. lia.
Qed.

Lemma loop_wf ld cap count i P : good ld P ->
  good (load_loop ld (Some cap) i count) (fun l => Forall P l /\ length l = count /\ (l <> [] -> i + Z.of_nat count <= cap)).
Proof.
  intros G. revert i. induction count as [|count IH]; intros i; cbn -[Z.of_nat].
  { apply good_ret. split; [constructor|]. split; [done|]. done. }
  eapply good_bnd; [apply G|]. intros v Pv. destruct (Z.leb_spec cap i); [apply good_ub|].
  eapply good_bnd; [apply IH|]. intros l (F & L & C). apply good_ret.
  split; [by constructor|]. split; [cbn; lia|]. intros _.
  destruct l; [cbn in L; lia|]. assert (i + 1 + Z.of_nat count <= cap) by by apply C. lia.
Qed.

Lemma fields_wf ld (P : ty -> val -> Prop) fs : (forall t, In t fs -> good (ld t) (P t)) ->
  good (load_fields ld fs) (fun l => Forall2 P fs l).
Proof.
  induction fs as [|t fs IH]; intros G; cbn; [apply good_ret; constructor|].
  eapply good_bnd; [apply G; by left|]. intros v Pv.
  eapply good_bnd; [apply IH; intros; apply G; by right|]. intros l F. apply good_ret. by constructor.
Qed.

Lemma string_wf env : good load_string (wf env TStr).
Proof.
  eapply good_bnd; [apply good_get_int|]. intros f Hf. apply good_if; intros Er.
  { eapply good_bnd; [apply good_get_int|]. intros i Hi. apply good_ret. by constructor. }
  apply good_if; intros En; [apply good_ret; by constructor|].
  eapply good_bnd; [apply good_get_int|]. intros n Hn.
  eapply good_bnd; [apply good_into; apply Hn|]. intros l [Hl _]. apply good_ret.
  constructor; try done. by apply until_nul_is_text.
Qed.

Theorem load_good_wf env : Forall (fun t => plain t = true /\ forall n, t <> TChars n) env ->
  forall fuel t, plain t = true -> good (load fuel env t) (wf env t).
Proof.
  intros He. induction fuel as [|fuel IH]; intros t Ht; [apply good_oof|].
  destruct t as [|k|n|n| | |sz fs|sz fs|sized n t|i];
    cbn -[get_int into get_opaque load_string f_ref f_null f_opaque]; cbn -[size_of] in Ht.
  - apply good_ret. constructor.
  - eapply good_bnd; [apply good_get_int|]. intros v Hv. apply good_ret. by constructor.
  - eapply good_bnd; [apply good_opaque; lia|]. intros l [Hb Hl]. apply good_ret.
    apply Nat2Z.inj in Hl as <-. by constructor.
  - eapply good_bnd; [apply good_get_int|]. intros m Hm. unfold into.
    eapply good_bnd with (P := fun l => Forall byte l /\ (length l <= n)%nat).
    + eapply good_bnd; [apply good_opaque; apply Hm|]. intros l [Hb Hl].
      apply good_if; intros E; [apply good_ub|]. apply good_ret. split; [done|lia].
    + intros l [Hb Hl]. apply good_ret. destruct (until_nul_is_text l Hb). constructor; [done|lia].
  - eapply good_bnd; [apply good_get_int|]. intros m Hm.
    eapply good_bnd; [apply good_into; apply Hm|]. intros l [Hb Hl]. apply good_ret.
    constructor. by apply until_nul_is_text.
  - apply string_wf.
  - eapply good_bnd; [apply (fields_wf _ (wf env))|].
    + intros t Hin. apply IH. rewrite forallb_forall in Ht. by apply Ht.
    + intros l F. apply good_ret. by constructor.
  - eapply good_bnd; [apply (string_wf env)|]. intros s Ws. destruct s as [| | | | |f name| | | | | | | |]; try apply good_fail.
    inversion Ws; subst.
    destruct fs as [|p fs]; [apply good_ret; constructor|]. destruct (find _ _) as [[q tq]|] eqn:E; [|apply good_fail].
    pose proof E as E0. apply find_some in E0 as [Hin Hq]. cbn in Hq. apply bool_decide_eq_true in Hq as ->.
    eapply good_bnd; [apply (IH tq)|].
    + rewrite forallb_forall in Ht. by apply (Ht (name, tq)).
    + intros v Wv. apply good_ret. by eapply wf_union.
  - apply andb_prop in Ht as [Hs Ht]. destruct (Nat.eqb_spec n 0) as [->|Hn].
    { destruct sized; [|apply good_ret; by constructor]. apply good_ret.
      cbn in Hs. apply wf_arr_sized; [cbn; lia|lia|cbn -[Z.pow]; lia|constructor]. }
    destruct sized.
    + cbn in Hs. eapply good_bnd; [apply good_get_int|]. intros m Hm.
      destruct (Z.eqb_spec (size_of t) 0); [lia|].
      eapply good_bnd; [apply loop_wf, (IH t Ht)|]. intros l (F & L & C). apply good_ret.
      unfold below in Hm. cbn -[Z.pow] in Hm.
      assert (0 <= m / size_of t) by (apply Z.div_pos; lia).
      pose proof (Z.mul_div_le m (size_of t) ltac:(lia)).
      constructor; [|lia|rewrite L, Z2Nat.id; lia|done].
      destruct l; [cbn; lia|]. specialize (C ltac:(done)). rewrite L. lia.
    + eapply good_bnd; [apply loop_wf, (IH t Ht)|]. intros l (F & L & C). apply good_ret. by constructor.
  - destruct (env !! i) as [t|] eqn:Ei; [|apply good_fail].
    destruct (Forall_lookup_1 _ _ _ _ He Ei) as [Hp Nc].
    eapply good_bnd; [apply good_get_int|]. intros f Hf. apply good_if; intros Er.
    { eapply good_bnd; [apply good_get_int|]. intros j Hj. apply good_ret. by constructor. }
    apply good_if; intros En; [apply good_ret; by constructor|].
    eapply good_bnd; [apply good_get_int|]. intros m Hm. unfold below in Hm. cbn -[Z.pow] in Hm. apply good_if; intros Eo.
    + apply good_if; intros Em; [apply good_fail|].
      eapply good_bnd; [apply good_into; apply Hm|]. intros l [Hb Hl]. apply good_ret.
      constructor; try done. destruct l; [cbn in Hl; lia|done].
    + apply good_if; intros Em; [apply good_fail|].
      pose proof (size_of_nonneg t) as Hs.
      assert (B : good (let* l := load_loop (load fuel env t) (Some (if 0 <? size_of t then m / size_of t else 1)) 0
                          (Z.to_nat (if 0 <? size_of t then m / size_of t else 1)) in ret (VPtrBlock f l)) (wf env (TPtr i))).
      { eapply good_bnd; [apply loop_wf, (IH t Hp)|]. intros l (F & L & C). apply good_ret.
        destruct (Z.ltb_spec 0 (size_of t)) as [Hs'|Hs'].
        - assert (0 <= m / size_of t) by (apply Z.div_pos; lia).
          pose proof (Z.mul_div_le m (size_of t) ltac:(lia)).
          eapply wf_ptr_block; try done.
          + intros ->. cbn in L. assert (m / size_of t = 0) by lia. lia.
          + rewrite L, Z2Nat.id; lia.
        - destruct l as [|v [|]]; try done. apply Forall_cons in F as [Wv _].
          eapply wf_ptr_zero; try done. lia. }
      destruct t; try apply B. by destruct (Nc n).
Qed.

Theorem load_wf env : Forall (fun t => plain t = true /\ forall n, t <> TChars n) env ->
  forall fuel t, plain t = true -> forall b h, inb b h -> forall v h', load fuel env t b h = Ok v h' -> wf env t v.
Proof. intros He fuel t Ht b h Hi v h' E. by destruct (load_good_wf env He fuel t Ht b h v h' Hi E). Qed.

(** ** The encoding consists of bytes *)

Lemma putlong_bytes v : Forall byte (putlong v).
Proof. unfold putlong, be32, byte. repeat constructor; apply Z.mod_pos_bound; lia. Qed.
Lemma put64_bytes v : Forall byte (put64 v).
Proof. apply Forall_app; split; apply putlong_bytes. Qed.
Lemma put_int_bytes k v : Forall byte (put_int k v).
Proof.
  destruct k as [|[]| | |]; cbn -[putlong put64]; try apply putlong_bytes; try apply put64_bytes.
  apply Forall_app; split; apply put64_bytes.
Qed.
Lemma put_opaque_bytes l : Forall byte l -> Forall byte (put_opaque l).
Proof.
  intros. apply Forall_app; split; [done|]. apply List.Forall_forall. intros x Hx.
  apply repeat_spec in Hx as ->. unfold byte. lia.
Qed.
Lemma text_bytes l : text l -> Forall byte l.
Proof. intros. eapply Forall_impl; [done|]. unfold byte. cbn. intros. lia. Qed.
Lemma text_nul_bytes l : text l -> Forall byte (l ++ [0]).
Proof. intros. apply Forall_app; split; [by apply text_bytes|]. repeat constructor; unfold byte; lia. Qed.
Lemma put_string_bytes f l : text l -> Forall byte (put_string f l).
Proof.
  intros. unfold put_string. do 2 (apply Forall_app; split; [apply put_int_bytes|]).
  by apply put_opaque_bytes, text_bytes.
Qed.

Lemma concat_bytes (ll : list (list Z)) : (forall l, In l ll -> Forall byte l) -> Forall byte (concat ll).
Proof.
  induction ll as [|l ll IH]; intros H; cbn; [constructor|].
  apply Forall_app; split; [apply H; by left|]. apply IH. intros. apply H. by right.
Qed.

Lemma save_bytes env v : forall t, wf env t v -> Forall byte (save env t v).
Proof.
  induction v as [|z|l|f i|f|f l|l IH|name v IH| |l IH|f i|f|f l|f l IH] using val_ind'; intros t W;
    inversion W; subst; cbn -[put_int put_opaque put_string chars_bytes Z.mul];
    try (apply put_int_bytes);
    try (apply Forall_app; split; apply put_int_bytes);
    try (by apply put_string_bytes).
  - constructor.
  - by apply put_opaque_bytes.
  - apply Forall_app; split; [apply put_int_bytes|]. apply put_opaque_bytes.
    unfold chars_bytes. destruct (Nat.ltb _ _); [by apply text_nul_bytes|by apply text_bytes].
  - apply Forall_app; split; [apply put_int_bytes|]. by apply put_opaque_bytes, text_nul_bytes.
  - match goal with H : Forall2 _ _ _ |- _ => rename H into F end. clear W.
    induction F as [|t v fs l Wv F IHF]; [constructor|].
    apply Forall_cons in IH as [IHv IH]. apply Forall_app; split; [by apply IHv|by apply IHF].
  - match goal with H : find _ _ = _ |- _ => rewrite H end.
    apply Forall_app; split; [by apply put_string_bytes|]. by apply IH.
  - apply put_string_bytes. constructor.
  - match goal with H : Forall (wf _ _) _ |- _ => rename H into Fw end.
    apply concat_bytes. intros w Hw. apply in_map_iff in Hw as (v & <- & Hv).
    rewrite List.Forall_forall in IH, Fw. apply IH; auto.
  - apply Forall_app; split; [destruct (negb _); [apply put_int_bytes|constructor]|].
    match goal with H : Forall (wf _ _) _ |- _ => rename H into Fw end.
    apply concat_bytes. intros w Hw. apply in_map_iff in Hw as (v & <- & Hv).
    rewrite List.Forall_forall in IH, Fw. apply IH; auto.
  - do 2 (apply Forall_app; split; [apply put_int_bytes|]). by apply put_opaque_bytes.
  - match goal with H : env !! _ = _ |- _ => rewrite H end.
    match goal with H : Forall (wf _ _) _ |- _ => rename H into Fw end.
    match goal with H : forall n, t0 <> _ |- _ => rename H into Nc end.
    do 2 (apply Forall_app; split; [apply put_int_bytes|]).
    assert (Ep : pointee t0 = t0) by (destruct t0; try done; by destruct (Nc n)). rewrite Ep.
    apply concat_bytes. intros w Hw. apply in_map_iff in Hw as (v & <- & Hv).
    rewrite List.Forall_forall in IH, Fw. apply IH; auto.
  - match goal with H : env !! _ = _ |- _ => rewrite H end.
    match goal with H : forall n, t0 <> _ |- _ => rename H into Nc end.
    do 2 (apply Forall_app; split; [apply put_int_bytes|]). cbn [map concat]. rewrite app_nil_r.
    assert (Ep : pointee t0 = t0) by (destruct t0; try done; by destruct (Nc n)). rewrite Ep.
    apply Forall_cons in IH as [IH _]. by apply IH.
  - match goal with H : env !! _ = _ |- _ => rewrite H end.
    do 2 (apply Forall_app; split; [apply put_int_bytes|]). cbn [map concat]. rewrite app_nil_r.
    cbn [pointee]. apply Forall_app; split; [apply put_int_bytes|].
    by apply put_opaque_bytes, text_nul_bytes.
Qed.
