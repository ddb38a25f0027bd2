(** Proofs about the model of MR_ADD_TYPE. *)
From Verif Require Import Base DumpStruct.
Local Open Scope Z_scope.

(** * Vocabulary *)
(** The first member, at any depth, that is neither a structure, a union nor a bit-field: whether it is passed by address, and
    its position. *)
Fixpoint first_regular (d : decl) : option (bool * Z) :=
  match d with
  | Scalar _ _ _ off => Some (false, off)
  | Other _ _ off => Some (true, off)
  | Bit _ _ _ _ => None
  | Rec _ _ _ ds =>
    (fix go ds := match ds with [] => None | d :: ds => match first_regular d with Some x => Some x | None => go ds end end) ds
  end.
Definition first_of (ds : list decl) : option (bool * Z) :=
  (fix go ds := match ds with [] => None | d :: ds => match first_regular d with Some x => Some x | None => go ds end end) ds.

(** Members lie inside of a structure of [n] bytes. *)
Fixpoint inside (ldb : Z -> Z) (n : Z) (d : decl) : Prop :=
  match d with
  | Scalar _ _ t off => t <> NONE /\ t <> BITFIELD /\ 0 <= off /\ off + Z.of_nat (tsize t) <= n /\ (t = BOOL -> forall b, ldb b = b)
  | Other _ _ off => 0 <= off
  | Bit _ _ w bit => 0 <= bit < 8 * n /\ 0 <= w < 256
  | Rec _ _ _ ds => (fix go ds := match ds with [] => True | d :: ds => inside ldb n d /\ go ds end) ds
  end.
(** A member that is a structure or a union starts with a member that is no bit-field. *)
Definition starts (d : decl) : Prop :=
  match d with Rec _ _ off ds => exists a, first_regular d = Some (a, off) | _ => True end.

(** What is to be found for a member. *)
Definition regular (d : decl) : option fd :=
  match d with
  | Scalar ty nm t off => Some (Fd nm ty t (tc t) off 0 0 false)
  | Other ty nm off => Some (Fd nm ty NONE C_POINTER off 0 0 false)
  | Rec ty nm off _ => Some (Fd nm ty NONE C_RECORD off 0 0 false)
  | Bit _ _ _ _ => None
  end.
Definition bitfield (d : decl) : option fd :=
  match d with Bit ty nm w bit => Some (Fd nm ty BITFIELD C_NONE (bit / 8) w (bit mod 8) true) | _ => None end.

(** * Proofs *)
Lemma decl_ind' (P : decl -> Prop) :
  (forall ty nm t off, P (Scalar ty nm t off)) -> (forall ty nm off, P (Other ty nm off)) ->
  (forall ty nm w b, P (Bit ty nm w b)) -> (forall ty nm off ds, Forall P ds -> P (Rec ty nm off ds)) -> forall d, P d.
Proof.
  intros H1 H2 H3 H4. fix IH 1. intros [| | |ty nm off ds]; [apply H1|apply H2|apply H3|apply H4].
  induction ds; constructor; auto.
Qed.

Lemma inside_rec ldb n ty nm off ds : inside ldb n (Rec ty nm off ds) <-> Forall (inside ldb n) ds.
Proof.
  cbn. induction ds as [|d ds IH]; [by split; [constructor|]|]. rewrite Forall_cons, IH. done.
Qed.

(** The bytes of a sample. *)
Definition sample (n : Z) (h : Z -> Z) : list Z := map h (seqZ 0 n).
Lemma sample_length n h : length (sample n h) = Z.to_nat n.
Proof. unfold sample. rewrite map_length, seqZ_length. done. Qed.
Lemma sample_lookup n h i : 0 <= i < n -> sample n h !! Z.to_nat i = Some (h i).
Proof.
  intros H. unfold sample. rewrite list_lookup_fmap, lookup_seqZ_lt by lia. cbn. do 2 f_equal. lia.
Qed.

Lemma take_prefix {A} (l k : list A) p : take p l = take p k -> forall q, (q <= p)%nat -> take q l = take q k.
Proof. intros H q Hq. replace q with (Nat.min q p) by lia. rewrite <- !take_take, H. done. Qed.

Lemma memset_spec m p n c : 0 <= p -> 0 <= n -> p + n <= Z.of_nat (length m) ->
  exists m', memset m p n c = Some m' /\ length m' = length m /\
    (forall i, (i < Z.to_nat p)%nat -> m' !! i = m !! i) /\
    (forall i, p <= i < p + n -> m' !! Z.to_nat i = Some (c mod 2 ^ 8)).
Proof.
  intros H1 H2 H3. unfold memset. rewrite (proj2 (Z.leb_le 0 p)), (proj2 (Z.leb_le (p + n) _)) by done. cbn [andb].
  eexists. split; [done|]. split; [|split].
  - rewrite !app_length, take_length, replicate_length, drop_length. lia.
  - intros i Hi. rewrite lookup_app_l by (rewrite take_length; lia). apply lookup_take. lia.
  - intros i Hi. rewrite lookup_app_r by (rewrite take_length; lia). rewrite take_length.
    rewrite lookup_app_l by (rewrite replicate_length; lia). apply lookup_replicate_2. lia.
Qed.

Lemma sample_eq n h (m : list Z) : length m = Z.to_nat n -> (forall i, 0 <= i < n -> m !! Z.to_nat i = Some (h i)) -> m = sample n h.
Proof.
  intros L H. apply list_eq. intros i. destruct (decide (i < Z.to_nat n)%nat) as [Hi|Hi].
  - specialize (H (Z.of_nat i)). rewrite Nat2Z.id in H. rewrite H by lia.
    pose proof (sample_lookup n h (Z.of_nat i)) as S. rewrite Nat2Z.id in S. rewrite S by lia. done.
  - rewrite !lookup_ge_None_2; rewrite ?sample_length; lia || done.
Qed.

Lemma fill_spec g bs n : 1 <= bs -> bs <= n -> n < 2 ^ 63 -> forall fuel m j,
  length m = Z.to_nat n -> 0 <= j -> j * bs <= n -> n - j * bs <= Z.of_nat fuel ->
  (forall i, 0 <= i < j * bs -> m !! Z.to_nat i = Some (g (i / bs) mod 2 ^ 8)) ->
  fill fuel g bs m (j * bs) j = Some (sample n (fun a => g (a / bs) mod 2 ^ 8)).
Proof.
  intros B1 B2 N. induction fuel as [|fuel IH]; intros m j L J1 J2 F H.
  - cbn [fill]. rewrite L, Z2Nat.id by lia. rewrite Z.mod_small by lia.
    destruct (Z.ltb_spec (j * bs) (n - (bs - 1))) as [X|X]; [nia|].
    assert (n = j * bs) as E by lia.
    destruct (memset_spec m (j * bs) (n mod bs) (g j)) as (m' & -> & L' & P1 & P2).
    { lia. } { apply Z.mod_pos_bound. lia. } { rewrite L. rewrite E at 1. rewrite Z.mod_mul by lia. lia. }
    f_equal. apply sample_eq; [lia|]. intros i Hi. rewrite P1 by lia. apply H. lia.
  - cbn [fill]. rewrite L, Z2Nat.id by lia. rewrite Z.mod_small by lia.
    destruct (Z.ltb_spec (j * bs) (n - (bs - 1))) as [X|X].
    + destruct (memset_spec m (j * bs) bs (g j)) as (m' & -> & L' & P1 & P2); [lia|lia|lia|]. cbn [mbind option_bind].
      replace (j * bs + bs) with ((j + 1) * bs) by lia. apply IH; [lia|lia|nia|nia|].
      intros i Hi. destruct (decide (i < j * bs)) as [Y|Y].
      * rewrite P1 by lia. apply H. lia.
      * rewrite P2 by lia. do 2 f_equal. f_equal. apply (Z.div_unique _ _ _ (i - j * bs)); lia.
    + assert (n / bs = j) as Q by (symmetry; apply (Z.div_unique _ _ _ (n - j * bs)); lia).
      pose proof (Z.div_mod n bs ltac:(lia)) as D. rewrite Q in D.
      pose proof (Z.mod_pos_bound n bs ltac:(lia)).
      destruct (memset_spec m (j * bs) (n mod bs) (g j)) as (m' & -> & L' & P1 & P2); [lia|lia|lia|].
      f_equal. apply sample_eq; [lia|]. intros i Hi. destruct (decide (i < j * bs)) as [Y|Y].
      * rewrite P1 by lia. apply H. lia.
      * rewrite P2 by lia. do 2 f_equal. f_equal. apply (Z.div_unique _ _ _ (i - j * bs)); lia.
Qed.

Lemma fill_sample g bs n m : 1 <= bs -> bs <= n -> n < 2 ^ 63 -> length m = Z.to_nat n ->
  fill (length m) g bs m 0 0 = Some (sample n (fun a => g (a / bs) mod 2 ^ 8)).
Proof.
  intros B1 B2 N L. apply (fill_spec g bs n B1 B2 N (length m) m 0); [done|lia|lia|lia|]. lia.
Qed.

(** * Values that are passed *)
(** A value as it is seen in the pass for [byte]: found by address at [off], or a byte of the position of an object of type [t]. *)
Definition seen (byte : Z) (a : bool) (off : Z) (v : value) : Prop :=
  if a then v = Addr off
  else exists t b, classify v = Some (t, b) /\ t <> NONE /\ b = off / 256 ^ byte mod 256.

Section Pass.
  Context (ldb : Z -> Z) (n byte : Z) (Hb : 0 <= byte).
  Notation h := (fun a => a / 256 ^ byte mod 2 ^ 8).

  Lemma object_sample off k : 0 <= off -> off + Z.of_nat k <= n -> (0 < k)%nat ->
    exists l, object (sample n h) off k = Some l /\ length l = k /\ forall i, (i < k)%nat -> l !! i = Some (h (off + Z.of_nat i)).
  Proof.
    intros H1 H2 H3. unfold object. rewrite (proj2 (Z.leb_le 0 off)) by done. rewrite sample_length.
    rewrite (proj2 (Nat.leb_le _ _)) by lia. cbn [andb]. eexists. split; [done|]. split.
    - rewrite take_length, drop_length, sample_length. lia.
    - intros i Hi. rewrite lookup_take by lia. rewrite lookup_drop. etransitivity; [|exact (sample_lookup n h (off + Z.of_nat i) ltac:(lia))]. f_equal. lia.
  Qed.

  Lemma pass_seen ty nm t off : inside ldb n (Scalar ty nm t off) ->
    exists v, pass ldb (sample n h) t off = Some v /\ seen byte false off v /\
      (byte = 0 -> exists b, classify v = Some (t, b)).
  Proof.
    intros (T1 & T2 & O1 & O2 & B). unfold pass.
    destruct (object_sample off (tsize t) O1 O2) as (l & -> & L & G). { destruct t; cbn; lia. }
    cbn [mbind option_bind].
    assert (l !! 0%nat = Some (h off)) as G0. { rewrite G by (destruct t; cbn; lia). do 2 f_equal. f_equal. lia. }
    assert (h off = off / 256 ^ byte mod 256) as Hh by done.
    destruct t; try done; cbn [tsize] in *.
    all: try (eexists; split; [done|]; cbn [seen classify]; unfold rd in *; rewrite G0; cbn [mbind option_bind];
      split; [do 2 eexists; done|intros _; eexists; done]).
    - (* BOOL *) unfold rd. rewrite G0. cbn [mbind option_bind]. eexists. split; [done|]. cbn. rewrite B by done.
      split; [do 2 eexists; done|eexists; done].
    - (* INT32 *) eexists; split; [done|]. cbn [seen classify]. unfold rd. rewrite G0. cbn [mbind option_bind]. split.
      + do 2 eexists. split; [done|]. split; [by destruct (forallb _ _)|done].
      + intros ->. eexists. do 2 f_equal. enough (forallb (Z.eqb 0) (drop 1 l) = false) as -> by done.
        destruct l as [|a [|b [|c [|]]]]; try done. cbn in L.
        pose proof (G 1%nat ltac:(lia)) as G1. pose proof (G 2%nat ltac:(lia)) as G2. cbn in G1, G2.
        rewrite Z.div_1_r in G1, G2. injection G1 as ->. injection G2 as ->. cbn [drop forallb].
        change (Z.of_nat 1) with 1. change (Z.of_nat 2) with 2.
        destruct (Z.eqb_spec 0 ((off + 1) mod 2 ^ 8)) as [Y|]; [|done].
        destruct (Z.eqb_spec 0 ((off + 2) mod 2 ^ 8)) as [Y'|]; [|done]. exfalso.
        pose proof (Z.div_mod (off + 1) (2 ^ 8) ltac:(lia)). pose proof (Z.div_mod (off + 2) (2 ^ 8) ltac:(lia)). lia.
    - (* DOUBLE *) eexists; split; [done|]. cbn [seen classify]. unfold rd. rewrite G0.
      pose proof (G 1%nat ltac:(lia)) as G1. rewrite G1. cbn [mbind option_bind]. split.
      + do 2 eexists. split; [done|]. split; [by destruct (_ && _)|done].
      + intros ->. eexists. do 2 f_equal. rewrite !Z.div_1_r. change (Z.of_nat 1) with 1.
        destruct (Z.eqb_spec (off mod 2 ^ 8) 0) as [Y|]; [|done].
        destruct (Z.eqb_spec ((off + 1) mod 2 ^ 8) 0) as [Y'|]; [|done]. exfalso.
        pose proof (Z.div_mod (off + 1) (2 ^ 8) ltac:(lia)). pose proof (Z.div_mod off (2 ^ 8) ltac:(lia)). lia.
  Qed.

  (** What is known about a position after [k] passes. *)
  Definition low (k : Z) (af : bool * fd) : fd :=
    let f := af.2 in
    if af.1 then f else Fd (fname f) (ftype f) (fmr_type f) (fclass f) (foffset f mod 256 ^ k) (fwidth f) (fshift f) (finit f).

  Context (depth : nat).
  Notation det := (detection depth byte).

  Definition pre (F : list fd) (i : nat) (af : bool * fd) : Prop :=
    if byte =? 0 then i = length F
    else ((i < length F)%nat /\ F !! i = Some (low byte af)) \/ (i = length F /\ (depth <= length F)%nat).
  Definition res (F : list fd) (i : nat) (af : bool * fd) : bool * list fd :=
    if byte =? 0 then (if (depth <=? length F)%nat then (true, F) else (false, F ++ [low 1 af]))
    else (if (i <? length F)%nat then (false, <[i := low (byte + 1) af]> F) else (true, F)).

  Lemma mod_step x : 0 <= x -> 0 < byte -> x < 2 ^ 63 ->
    (x mod 256 ^ byte + x / 256 ^ byte mod 256 * 2 ^ (8 * byte)) mod 2 ^ 64 = x mod 256 ^ (byte + 1).
  Proof.
    intros H1 H2 H3. rewrite (Z.pow_mul_r 2 8 byte) by lia. change (2 ^ 8) with 256.
    pose proof (Z.pow_pos_nonneg 256 byte ltac:(lia) ltac:(lia)) as P.
    rewrite Z.pow_add_r, Z.pow_1_r by lia. rewrite (Z.mul_comm (_ mod 256)).
    rewrite <- (Z.rem_mul_r x (256 ^ byte) 256) by lia. apply Z.mod_small.
    pose proof (Z.mod_le x (256 ^ byte * 256) ltac:(lia) ltac:(lia)). pose proof (Z.mod_pos_bound x (256 ^ byte * 256) ltac:(lia)). lia.
  Qed.

  (** A line for which a descriptor is added or continued; [f] is what is to be found. *)
  Lemma det_line F i p indent ty nm v a off t0 n0 p' f :
    (p' = None /\ 2 < indent /\ p = Some (ty, nm) /\ f = Fd nm ty NONE C_RECORD off 0 0 false \/
     p' = p /\ indent = 2 /\ t0 = ty /\ n0 = nm /\ exists t, f = Fd nm ty t (tc t) off 0 0 false /\ (byte = 0 -> exists b, classify v = Some (t, b))) ->
    seen byte a off v -> 0 <= off -> (a = false -> off < 2 ^ 63) -> pre F i (a, f) ->
    det (Ctx F i p) (Member indent t0 n0 v) = Some ((res F i (a, f)).1, Ctx (res F i (a, f)).2 (S i) p').
  Proof.
    intros HH Sn O1 O2 Pre.
    assert (exists t b, classify v = Some (t, b) /\ (if a then t = NONE /\ b = off else t <> NONE /\ b = off / 256 ^ byte mod 256)) as (t & b & Cl & TB).
    { destruct a; cbn in Sn; [subst v; do 2 eexists; done|]. destruct Sn as (t & b & ? & ? & ?). eauto. }
    assert (fname f = nm) as Fn. { destruct HH as [(_&_&_&->)|(_&_&_&_&?&->&_)]; done. }
    assert (foffset f = off) as Fo. { destruct HH as [(_&_&_&->)|(_&_&_&_&?&->&_)]; done. }
    assert (exists jj ff, add_field depth byte (Ctx F i p') ty nm v = Some (jj, (res F i (a, f)).1, Ctx ff (S i) p') /\
      if byte =? 0 then if (depth <=? length F)%nat then jj = None /\ ff = F else jj = Some i /\ ff = F ++ [Fd nm ty t C_NONE b 0 0 false]
      else jj = None /\ ff = (res F i (a, f)).2) as (jj & ff & Ad & Jf).
    { unfold add_field. rewrite Cl. cbn [mbind option_bind fields fidx pend]. unfold pre, res in *.
      destruct (Z.eqb_spec byte 0) as [Z0|Z0].
      - subst i. rewrite Nat.min_id, Nat.eqb_refl. cbn [andb].
        destruct (Nat.leb_spec depth (length F)); do 2 eexists; done.
      - destruct Pre as [(Li & Fi)|(Li & Ld)].
        + rewrite Nat.min_l by lia. destruct (Nat.eqb_spec i (length F)); [lia|]. cbn [andb].
          rewrite (proj2 (Nat.ltb_lt _ _) Li). cbn [fst snd].
          destruct (decide (t = NONE)) as [T|T].
          * destruct a; [|destruct TB; done]. do 2 eexists. split; [done|]. split; [done|].
            unfold low in *. cbn [fst snd] in *. rewrite list_insert_id; done.
          * destruct a; [destruct TB; done|]. destruct TB as (_ & ->).
            rewrite (proj2 (Nat.leb_gt _ _) Li). cbn [fields fidx pend]. unfold rd. rewrite Fi. cbn [mbind option_bind].
            unfold low at 1. cbn [fst snd fname]. rewrite bool_decide_eq_true_2 by done.
            rewrite wr_Some by done. cbn [mbind option_bind]. do 2 eexists. split; [done|]. split; [done|].
            f_equal. unfold low. cbn [fst snd fname ftype fmr_type fclass foffset fwidth fshift finit].
            rewrite Fo. rewrite mod_step by (auto with lia || lia). done.
        + subst i. rewrite Nat.min_id, Nat.eqb_refl, (proj2 (Nat.leb_le _ _) Ld). cbn [andb].
          rewrite Nat.ltb_irrefl. do 2 eexists. done. }
    assert (det (Ctx F i p) (Member indent t0 n0 v) =
      ('(i, jump, s) ← Some (jj, (res F i (a, f)).1, Ctx ff (S i) p');
      match i with
      | None => Some (jump, s)
      | Some i =>
        f ← rd (fields s) i;
        let '(t, c) := if 2 <? indent then (NONE, C_RECORD) else (fmr_type f, tc (fmr_type f)) in
        fs ← wr (fields s) i (Fd (fname f) (ftype f) t c (foffset f) (fwidth f) (fshift f) (finit f));
        Some (jump, Ctx fs (fidx s) (pend s))
      end)) as ->.
    { rewrite <- Ad. unfold detection. cbn [pend fields fidx]. destruct HH as [(-> & H2 & -> & _)|(-> & -> & -> & -> & _)].
      - rewrite (proj2 (Z.ltb_lt _ _) H2). cbn [negb]. done.
      - rewrite Z.ltb_irrefl. cbn [negb Z.eqb Pos.eqb]. done. }
    cbn [mbind option_bind]. unfold res in *. destruct (Z.eqb_spec byte 0) as [Z0|Z0]; [|destruct Jf as (-> & ->); done].
    unfold pre in Pre. rewrite Z0 in Pre. cbn in Pre. subst i.
    destruct (Nat.leb_spec depth (length F)); [destruct Jf as (-> & ->); done|]. destruct Jf as (-> & ->).
    cbn [fields fidx pend fst snd]. unfold rd. rewrite lookup_app_r, Nat.sub_diag by lia. cbn [lookup list_lookup mbind option_bind].
    cbn [fname ftype fmr_type fclass foffset fwidth fshift finit].
    assert (low 1 (a, f) = Fd nm ty (if 2 <? indent then NONE else t) (if 2 <? indent then C_RECORD else tc t) b 0 0 false) as Lw.
    { assert (b = if a then off else off mod 256 ^ 1) as ->.
      { destruct a; [apply TB|]. destruct TB as (_ & ->). rewrite Z0. rewrite Z.div_1_r. done. }
      unfold low. destruct HH as [(-> & H2 & -> & ->)|(-> & -> & -> & -> & t' & -> & Ct)].
      - rewrite (proj2 (Z.ltb_lt _ _) H2). by destruct a.
      - rewrite Z.ltb_irrefl. destruct (Ct Z0) as (b' & Cb). rewrite Cl in Cb. injection Cb as -> _. by destruct a. }
    destruct (2 <? indent); rewrite wr_Some by (rewrite app_length; cbn; lia); cbn [mbind option_bind]; do 2 f_equal;
      (rewrite insert_app_r_alt, Nat.sub_diag by lia); cbn; rewrite Lw; done.
  Qed.

  Context (Hn : n < 2 ^ 63).
  Notation m := (sample n h).

  (** The lines inside of a member: the first regular one is taken for the member, the others are passed over. *)
  Definition inner_goal (lines : list line) (fst : option (bool * Z)) : Prop :=
    (forall F i rest, calls det (Ctx F i None) (lines ++ rest) = calls det (Ctx F i None) rest) /\
    forall F i ty nm rest,
      match fst with
      | None => calls det (Ctx F i (Some (ty, nm))) (lines ++ rest) = calls det (Ctx F i (Some (ty, nm))) rest
      | Some (a, off) =>
        forall j F' i', (forall ind t0 n0 v, 2 < ind -> seen byte a off v -> 0 <= off -> (a = false -> off < 2 ^ 63) ->
            det (Ctx F i (Some (ty, nm))) (Member ind t0 n0 v) = Some (j, Ctx F' i' None)) ->
          calls det (Ctx F i (Some (ty, nm))) (lines ++ rest) = if j : bool then Some (Ctx F' i' None) else calls det (Ctx F' i' None) rest
      end.

  Lemma member_goal indent ty nm v a off : 2 < indent -> seen byte a off v -> 0 <= off -> (a = false -> off < 2 ^ 63) ->
    inner_goal [Member indent ty nm v] (Some (a, off)).
  Proof.
    intros Hi Sn O1 O2. split.
    - intros F i rest. cbn [app calls].
      assert (det (Ctx F i None) (Member indent ty nm v) = Some (false, Ctx F i None)) as ->; [|done].
      unfold detection. cbn [pend]. rewrite (proj2 (Z.ltb_lt _ _) Hi). destruct (Z.eqb_spec indent 2); [lia|]. done.
    - intros F i ty' nm' rest j F' i' D. cbn [app calls]. rewrite (D indent ty nm v) by done. cbn [mbind option_bind]. done.
  Qed.

  Lemma inner_app l1 f1 l2 f2 : inner_goal l1 f1 -> inner_goal l2 f2 ->
    inner_goal (l1 ++ l2) (match f1 with Some x => Some x | None => f2 end).
  Proof.
    intros (A1 & B1) (A2 & B2). split.
    - intros F i rest. rewrite <- app_assoc, A1. apply A2.
    - intros F i ty nm rest. specialize (B1 F i ty nm (l2 ++ rest)). specialize (B2 F i ty nm rest).
      destruct f1 as [[a off]|].
      + intros j F' i' D. rewrite <- app_assoc, (B1 j F' i' D). destruct j; [done|]. apply A2.
      + destruct f2 as [[a off]|]; [intros j F' i' D|]; rewrite <- app_assoc, B1; [by apply B2|done].
  Qed.

  Lemma inner_lines d : inside ldb n d -> forall indent, 2 < indent ->
    exists ls, dump ldb indent m d = Some ls /\ inner_goal ls (first_regular d).
  Proof.
    induction d as [ty nm t off|ty nm off|ty nm w b|ty nm off ds IH] using decl_ind'; intros W indent Hi.
    - destruct (pass_seen ty nm t off W) as (v & Hv & Sn & _). cbn [dump]. rewrite Hv. cbn [mbind option_bind].
      eexists. split; [done|]. destruct W as (_ & _ & O1 & O2 & _). apply member_goal; try done; intros; lia.
    - cbn [dump]. eexists. split; [done|]. apply member_goal; try done.
    - cbn [dump]. destruct W as (W1 & W2). destruct (Z.ltb_spec b 0); [lia|]. unfold rd.
      rewrite sample_lookup. 2:{ split; [apply Z.div_pos; lia|apply Z.div_lt_upper_bound; lia]. }
      cbn [mbind option_bind]. eexists. split; [done|]. split; intros; done.
    - apply inside_rec in W. cbn [dump].
      assert (forall ind, 2 < ind -> exists lss, mapM (dump ldb ind m) ds = Some lss /\ inner_goal (concat lss) (first_of ds)) as Sub.
      { intros ind Hd. clear Hi. induction IH as [|d ds H _ IHds].
        - exists []. split; [done|]. split; intros; done.
        - apply Forall_cons in W as (Wd & W). destruct (H Wd ind Hd) as (ls & E & G). destruct (IHds W) as (lss & Es & Gs).
          exists (ls :: lss). cbn [mapM]. rewrite E. cbn [mbind option_bind]. rewrite Es. cbn. split; [done|].
          apply (inner_app _ _ _ _ G Gs). }
      destruct (Sub (indent + 2)) as (lss & E & G); [lia|]. rewrite E. cbn [mbind option_bind]. eexists. split; [done|].
      change (first_regular (Rec ty nm off ds)) with (first_of ds).
      change (first_of ds) with (match (None : option (bool * Z)) with Some x => Some x | None => first_of ds end).
      apply (inner_app [Header indent ty nm]); [|done].
      assert (forall s, det s (Header indent ty nm) = Some (false, s)) as Hd.
      { intros s. cbn. destruct (Z.eqb_spec indent 2); [lia|]. done. }
      split; intros; cbn [app calls]; rewrite Hd; done.
  Qed.

  (** What is to be found for a member, and whether it is found by address. *)
  Definition found (d : decl) : option (bool * fd) :=
    match d with
    | Scalar ty nm t off => Some (false, Fd nm ty t (tc t) off 0 0 false)
    | Other ty nm off => Some (true, Fd nm ty NONE C_POINTER off 0 0 false)
    | Rec ty nm off _ => a ← first_regular d; Some (fst a, Fd nm ty NONE C_RECORD off 0 0 false)
    | Bit _ _ _ _ => None
    end.

  Lemma decl_lines d : inside ldb n d -> starts d -> exists ls, dump ldb 2 m d = Some ls /\
    forall F i p rest,
      match found d with
      | None => calls det (Ctx F i p) (ls ++ rest) = calls det (Ctx F i p) rest
      | Some af => pre F i af -> exists p',
        calls det (Ctx F i p) (ls ++ rest) = if (res F i af).1 then Some (Ctx (res F i af).2 (S i) p') else calls det (Ctx (res F i af).2 (S i) p') rest
      end.
  Proof.
    destruct d as [ty nm t off|ty nm off|ty nm w b|ty nm off ds]; intros W St.
    - destruct (pass_seen ty nm t off W) as (v & Hv & Sn & Cl). cbn [dump]. rewrite Hv. cbn [mbind option_bind].
      eexists. split; [done|]. intros F i p rest P. exists p. destruct W as (_ & _ & O1 & O2 & _). cbn [app calls].
      rewrite (det_line F i p 2 ty nm v false off ty nm p (Fd nm ty t (tc t) off 0 0 false)).
      { done. } { right. do 4 (split; [done|]). eexists. done. } { done. } { done. } { intros; lia. } { done. }
    - cbn [dump]. eexists. split; [done|]. intros F i p rest P. exists p. cbn [app calls].
      rewrite (det_line F i p 2 ty nm (Addr off) true off ty nm p (Fd nm ty NONE C_POINTER off 0 0 false)).
      { done. } { right. do 4 (split; [done|]). exists NONE. split; [done|]. intros _. eexists. done. } { done. } { done. } { done. } { done. }
    - cbn [dump]. destruct W as (W1 & W2). destruct (Z.ltb_spec b 0); [lia|]. unfold rd.
      rewrite sample_lookup. 2:{ split; [apply Z.div_pos; lia|apply Z.div_lt_upper_bound; lia]. }
      cbn [mbind option_bind]. eexists. split; [done|]. done.
    - destruct St as (a & Fr).
      assert (Forall (inside ldb n) ds) as W' by (by apply inside_rec in W).
      cbn [dump]. unfold found. rewrite Fr. cbn [mbind option_bind fst].
      assert (exists lss, mapM (dump ldb 4 m) ds = Some lss /\ inner_goal (concat lss) (first_of ds)) as (lss & E & G).
      { clear Fr W. induction W' as [|d ds Hd _ IHds].
        - exists []. split; [done|]. split; intros; done.
        - destruct (inner_lines d Hd 4 ltac:(lia)) as (ls & E & G). destruct IHds as (lss & Es & Gs).
          exists (ls :: lss). cbn [mapM]. rewrite E. cbn [mbind option_bind]. rewrite Es. cbn. split; [done|].
          apply (inner_app _ _ _ _ G Gs). }
      change (2 + 2) with 4. rewrite E. cbn [mbind option_bind]. eexists. split; [done|].
      intros F i p rest P. exists None. cbn [app calls].
      assert (det (Ctx F i p) (Header 2 ty nm) = Some (false, Ctx F i (Some (ty, nm)))) as -> by done. cbn [mbind option_bind].
      destruct G as (_ & G). specialize (G F i ty nm rest). change (first_of ds) with (first_regular (Rec ty nm off ds)) in G.
      rewrite Fr in G. apply G. intros ind t0 n0 v Hi Sn O1 O2.
      apply (det_line F i _ ind ty nm v a off); [|done..]. left. done.
  Qed.

  (** A pass over all members. *)
  Lemma dump_all ds : Forall (inside ldb n) ds -> Forall starts ds ->
    exists lss, mapM (dump ldb 2 m) ds = Some lss /\
      forall F i p,
        (if byte =? 0 then i = length F /\ (length F <= depth)%nat
         else exists P, F = P ++ map (low byte) (take (depth - length P) (omap found ds)) /\ i = length P /\ (length P <= depth)%nat) ->
        exists s, calls det (Ctx F i p) (concat lss) = Some s /\
          fields s = if byte =? 0 then take depth (F ++ map (low 1) (omap found ds))
            else take i F ++ map (low (byte + 1)) (take (depth - i) (omap found ds)).
  Proof.
    intros W St. induction W as [|d ds Wd W IH].
    - exists []. split; [done|]. intros F i p H. eexists. split; [done|]. cbn [fields omap list_omap map].
      destruct (Z.eqb_spec byte 0).
      + destruct H. cbn. rewrite app_nil_r, take_ge by lia. done.
      + destruct H as (P & -> & -> & _). cbn [omap list_omap]. rewrite take_nil. cbn. rewrite !app_nil_r, take_ge by lia. done.
    - apply Forall_cons in St as (Sd & St). destruct (decl_lines d Wd Sd) as (ls & E & G). destruct (IH St) as (lss & Es & Gs).
      exists (ls :: lss). cbn [mapM]. rewrite E. cbn [mbind option_bind]. rewrite Es. cbn [mbind option_bind]. split; [done|].
      intros F i p H. cbn [concat]. specialize (G F i p (concat lss)). cbn [omap list_omap] in *.
      destruct (found d) as [af|]; [|rewrite G; by apply Gs]. unfold pre, res in G.
      destruct (Z.eqb_spec byte 0) as [Z0|Z0].
      + destruct H as (-> & H). destruct (G eq_refl) as (p' & ->). destruct (Nat.leb_spec depth (length F)); cbn [fst snd].
        * eexists. split; [done|]. cbn [fields]. rewrite take_app_le, take_ge by lia. done.
        * destruct (Gs (F ++ [low 1 af]) (S (length F)) p') as (s & -> & Fs).
          { rewrite app_length. cbn. lia. }
          exists s. split; [done|]. rewrite Fs, <- app_assoc. done.
      + destruct H as (P & HF & -> & H). subst F. destruct G as (p' & ->).
        { destruct (decide (length P < depth)%nat) as [L|L].
          - left. replace (depth - length P)%nat with (S (depth - S (length P))) by lia. cbn [take map firstn].
            rewrite app_length, lookup_app_r, Nat.sub_diag by lia. cbn. split; [lia|done].
          - right. replace (depth - length P)%nat with 0%nat by lia. cbn [take map firstn]. rewrite app_nil_r. lia. }
        destruct (decide (length P < depth)%nat) as [L|L].
        * replace (depth - length P)%nat with (S (depth - S (length P))) by lia. cbn [take map firstn].
          rewrite (proj2 (Nat.ltb_lt _ _)) by (rewrite app_length; cbn; lia). cbn [fst snd].
          rewrite insert_app_r_alt, Nat.sub_diag by lia. cbn [insert list_insert].
          destruct (Gs (P ++ low (byte + 1) af :: map (low byte) (take (depth - S (length P)) (omap found ds))) (S (length P)) p') as (s & -> & Fs).
          { exists (P ++ [low (byte + 1) af]). rewrite app_length, Nat.add_1_r, <- app_assoc. split; [done|]. lia. }
          exists s. split; [done|]. rewrite Fs.
          change (low (byte + 1) af :: ?l) with ([low (byte + 1) af] ++ l). rewrite app_assoc.
          rewrite take_app_alt by (rewrite app_length; cbn; lia). rewrite <- app_assoc, take_app. done.
        * replace (depth - length P)%nat with 0%nat by lia. cbn [take map firstn]. rewrite !app_nil_r, Nat.ltb_irrefl. cbn [fst snd].
          eexists. split; [done|]. cbn [fields]. rewrite take_ge by lia. done.
  Qed.
End Pass.

Lemma first_inside ldb n d off : inside ldb n d -> first_regular d = Some (false, off) -> 0 <= off < n.
Proof.
  induction d as [ty nm t o|ty nm o|ty nm w b|ty nm o ds IH] using decl_ind'; intros W E; try done.
  - destruct W as (_ & _ & O1 & O2 & _). injection E as ->. destruct t; cbn in O2; lia.
  - apply inside_rec in W. cbn in E. change (first_of ds = Some (false, off)) in E. induction IH as [|d ds H _ IHds]; [done|].
    apply Forall_cons in W as (Wd & W). cbn in E. destruct (first_regular d) as [[a o']|] eqn:Ed.
    + injection E as -> ->. by apply H.
    + by apply IHds.
Qed.

Lemma low_final ldb n k d af : inside ldb n d -> starts d -> n < 256 ^ k -> found d = Some af -> low k af = af.2.
Proof.
  intros W St N Fd. destruct af as [[|] f]; [done|]. unfold low. cbn [fst snd].
  assert (0 <= foffset f < n).
  { destruct d as [ty nm t o|ty nm o|ty nm w b|ty nm o ds]; cbn [found] in Fd; try done.
    - injection Fd as <-. by apply (first_inside ldb n (Scalar ty nm t o)).
    - destruct St as (a & Fr). rewrite Fr in Fd. cbn in Fd. injection Fd as -> <-. by apply (first_inside ldb n _ _ W). }
  rewrite Z.mod_small by lia. by destruct f.
Qed.

Lemma found_regular ds : Forall starts ds -> map snd (omap found ds) = omap regular ds.
Proof.
  induction 1 as [|d ds St _ IH]; [done|]. destruct d as [ty nm t o|ty nm o|ty nm w b|ty nm o es];
    cbn [omap list_omap regular]; [cbn; by f_equal..|cbn; done|].
  destruct St as (a & Fr). unfold found at 1. rewrite Fr. cbn. by f_equal.
Qed.

Lemma sample_ext n h1 h2 : (forall a, h1 a = h2 a) -> sample n h1 = sample n h2.
Proof. intros H. apply map_ext. done. Qed.

Lemma map_low_final ldb n k depth ds : Forall (inside ldb n) ds -> Forall starts ds -> n < 256 ^ k ->
  map (low k) (take depth (omap found ds)) = take depth (omap regular ds).
Proof.
  intros W St N. rewrite <- found_regular by done. rewrite <- firstn_map. f_equal.
  induction W as [|d ds Wd W IH]; [done|]. apply Forall_cons in St as (Sd & St). cbn [omap list_omap].
  destruct (found d) as [af|] eqn:E; [|by apply IH]. cbn [map]. f_equal; [|by apply IH]. by apply (low_final ldb n k d).
Qed.

Section Whole.
  Context (ldb : Z -> Z) (n : Z) (depth : nat) (ds : list decl).
  Context (Hn : 1 <= n < 2 ^ 24) (W : Forall (inside ldb n) ds) (St : Forall starts ds).

  Lemma passes_spec fuel : forall byte s, 0 <= byte -> byte + Z.of_nat fuel = 4 -> (byte = 0 \/ 256 ^ byte <= n) ->
    (if byte =? 0 then fields s = [] else fields s = map (low byte) (take depth (omap found ds))) ->
    exists s', passes ldb fuel depth ds (sample n (fun a => a / 256 ^ byte mod 2 ^ 8)) byte s = Some s' /\
      fields s' = take depth (omap regular ds).
  Proof.
    induction fuel as [|fuel IH]; intros byte s B1 B2 B3 Fs.
    { exfalso. replace byte with 4 in B3 by lia. lia. }
    cbn [passes]. destruct (dump_all ldb n byte B1 depth ltac:(lia) ds W St) as (lss & E & G).
    unfold dump_struct. rewrite E. cbn [mbind option_bind].
    destruct (G (fields s) 0%nat (pend s)) as (s' & C & Fs').
    { destruct (Z.eqb_spec byte 0); [rewrite Fs; cbn; lia|]. exists []. cbn [app length]. rewrite Nat.sub_0_r. split; [done|]. lia. }
    rewrite C. cbn [mbind option_bind]. assert (fields s' = map (low (byte + 1)) (take depth (omap found ds))) as Fl.
    { rewrite Fs'. destruct (Z.eqb_spec byte 0) as [->|]; [|cbn; by rewrite Nat.sub_0_r]. rewrite Fs. cbn [app]. apply firstn_map. }
    rewrite sample_length, Z2Nat.id by lia. rewrite (Z.add_comm 1 byte).
    assert (byte <= 2) as B4.
    { destruct B3 as [->|B3]; [lia|]. destruct (decide (byte <= 2)); [done|]. assert (byte = 3) by lia. subst byte. lia. }
    destruct (Z.leb_spec 31 (8 * (byte + 1))) as [|L]; [lia|].
    rewrite Z.pow_mul_r by lia. change (2 ^ 8) with 256 at 1.
    destruct (Z.ltb_spec n (256 ^ (byte + 1))) as [K|K].
    - exists s'. split; [done|]. rewrite Fl. by apply (map_low_final ldb n).
    - change (2 ^ 8) with 256 at 1.
      replace (Z.to_nat n) with (length (sample n (fun a => a / 256 ^ byte mod 2 ^ 8))) by (rewrite sample_length; done).
      pose proof (Z.pow_pos_nonneg 256 (byte + 1) ltac:(lia) ltac:(lia)).
      rewrite (fill_sample id (256 ^ (byte + 1)) n) by (rewrite ?sample_length; lia || done).
      cbn [mbind option_bind]. apply (IH (byte + 1) s'); [lia|lia|by right|].
      destruct (Z.eqb_spec (byte + 1) 0); [lia|]. done.
  Qed.

  (** * Bit-fields *)
  Definition bitdesc (d : decl) : option (list Z * list Z * Z * Z) :=
    match d with Bit ty nm w bit => Some (ty, nm, w, bit) | _ => None end.
  Definition bf (off : Z -> Z) (x : list Z * list Z * Z * Z) : fd :=
    let '(ty, nm, w, bit) := x in Fd nm ty BITFIELD C_NONE (off bit) w 0 false.
  Definition quiet (l : line) : Prop := forall s, bitfield_detection depth s l = Some (false, s).

  Lemma pass_total h ty nm t off : inside ldb n (Scalar ty nm t off) -> exists v, pass ldb (sample n h) t off = Some v.
  Proof.
    intros (T1 & T2 & O1 & O2 & _). unfold pass, object. rewrite (proj2 (Z.leb_le 0 off)) by done. rewrite sample_length.
    rewrite (proj2 (Nat.leb_le _ _)) by lia. cbn [andb mbind option_bind]. destruct t; try (by eexists).
    destruct (rd_Some (take (tsize BOOL) (drop (Z.to_nat off) (sample n h))) 0) as (b & ->); [|by eexists].
    rewrite take_length, drop_length, sample_length. cbn [tsize] in *. lia.
  Qed.

  Lemma dump_quiet h d : inside ldb n d -> forall indent, 2 < indent ->
    exists ls, dump ldb indent (sample n h) d = Some ls /\ Forall quiet ls.
  Proof.
    induction d as [ty nm t off|ty nm off|ty nm w b|ty nm off es IH] using decl_ind'; intros Wd indent Hi.
    - destruct (pass_total h ty nm t off Wd) as (v & Hv). cbn [dump]. rewrite Hv. cbn [mbind option_bind].
      eexists. split; [done|]. repeat constructor.
    - cbn [dump]. eexists. split; [done|]. repeat constructor.
    - cbn [dump]. destruct Wd as (W1 & W2). destruct (Z.ltb_spec b 0); [lia|]. unfold rd.
      rewrite sample_lookup. 2:{ split; [apply Z.div_pos; lia|apply Z.div_lt_upper_bound; lia]. }
      cbn [mbind option_bind]. eexists. split; [done|]. constructor; [|constructor]. intros s. cbn.
      destruct (Z.eqb_spec indent 2); [lia|done].
    - apply inside_rec in Wd. cbn [dump].
      assert (exists lss, mapM (dump ldb (indent + 2) (sample n h)) es = Some lss /\ Forall quiet (concat lss)) as (lss & E & Q).
      { induction IH as [|d es H _ IHes]; [exists []; split; [done|constructor]|]. apply Forall_cons in Wd as (Wd & We).
        destruct (H Wd (indent + 2)) as (ls & E & Q); [lia|]. destruct (IHes We) as (lss & Es & Qs).
        exists (ls :: lss). cbn [mapM]. rewrite E. cbn [mbind option_bind]. rewrite Es. cbn. split; [done|]. by apply Forall_app. }
      rewrite E. cbn [mbind option_bind]. eexists. split; [done|]. constructor; done.
  Qed.

  Lemma calls_quiet ls rest s : Forall quiet ls -> calls (bitfield_detection depth) s (ls ++ rest) = calls (bitfield_detection depth) s rest.
  Proof. induction 1 as [|l ls Q _ IH]; [done|]. cbn [app calls]. rewrite Q. cbn. done. Qed.

  Lemma decl_bits h d : inside ldb n d -> exists ls, dump ldb 2 (sample n h) d = Some ls /\
    match bitdesc d with
    | None => Forall quiet ls
    | Some (ty, nm, w, bit) => ls = [Bits 2 ty nm w (h (bit / 8) / 2 ^ (bit mod 8))]
    end.
  Proof.
    destruct d as [ty nm t off|ty nm off|ty nm w b|ty nm off es]; intros Wd.
    - destruct (pass_total h ty nm t off Wd) as (v & Hv). cbn [dump]. rewrite Hv. cbn [mbind option_bind].
      eexists. split; [done|]. repeat constructor.
    - cbn [dump]. eexists. split; [done|]. repeat constructor.
    - cbn [dump]. destruct Wd as (W1 & W2). destruct (Z.ltb_spec b 0); [lia|]. unfold rd.
      rewrite sample_lookup. 2:{ split; [apply Z.div_pos; lia|apply Z.div_lt_upper_bound; lia]. }
      cbn [mbind option_bind]. eexists. split; [done|]. done.
    - apply inside_rec in Wd. cbn [dump bitdesc]. change (2 + 2) with 4.
      assert (exists lss, mapM (dump ldb 4 (sample n h)) es = Some lss /\ Forall quiet (concat lss)) as (lss & E & Q).
      { induction Wd as [|d es Wd _ IHes]; [exists []; split; [done|constructor]|].
        destruct (dump_quiet h d Wd 4) as (ls & E & Q); [lia|]. destruct IHes as (lss & Es & Qs).
        exists (ls :: lss). cbn [mapM]. rewrite E. cbn [mbind option_bind]. rewrite Es. cbn. split; [done|]. by apply Forall_app. }
      rewrite E. cbn [mbind option_bind]. eexists. split; [done|]. constructor; done.
  Qed.

  (** One pass: the descriptors are added ([first]) or a bit of the position is appended. *)
  Lemma bit_all (first : bool) (h old new : Z -> Z) es :
    (forall bit, 0 <= bit < 8 * n -> ((if first then 0 else old bit) * 2) mod 2 ^ 64 + h (bit / 8) / 2 ^ (bit mod 8) mod 2 = new bit) ->
    Forall (inside ldb n) es ->
    exists lss, mapM (dump ldb 2 (sample n h)) es = Some lss /\
      forall G i p,
        (if first then i = length G /\ (length G <= depth)%nat
         else exists P, G = P ++ map (bf old) (take (depth - length P) (omap bitdesc es)) /\ i = length P /\ (length P <= depth)%nat) ->
        exists s, calls (bitfield_detection depth) (Ctx G i p) (concat lss) = Some s /\
          fields s = (if first then take depth (G ++ map (bf new) (omap bitdesc es))
            else take i G ++ map (bf new) (take (depth - i) (omap bitdesc es))) /\
          (i <= fidx s)%nat /\ (omap bitdesc es = [] -> fidx s = i) /\ (omap bitdesc es <> [] -> (i < fidx s)%nat).
  Proof.
    intros Hnew We. induction We as [|d es Wd We IH].
    - exists []. split; [done|]. intros G i p H. eexists. split; [done|]. cbn [fields fidx omap list_omap map]. split; [|done].
      destruct first.
      + destruct H. rewrite app_nil_r, take_ge by lia. done.
      + destruct H as (P & -> & -> & _). cbn [omap list_omap]. rewrite take_nil. cbn. rewrite !app_nil_r, take_ge by lia. done.
    - destruct (decl_bits h d Wd) as (ls & E & Q). destruct IH as (lss & Es & Gs).
      exists (ls :: lss). cbn [mapM]. rewrite E. cbn [mbind option_bind]. rewrite Es. cbn [mbind option_bind]. split; [done|].
      intros G i p H. cbn [concat omap list_omap] in *.
      destruct (bitdesc d) as [[[[ty nm] w] bit]|] eqn:Bd; [|rewrite calls_quiet by done; by apply Gs].
      subst ls. cbn [app calls]. destruct d as [| |ty' nm' w' bit'|]; try done. injection Bd as -> -> -> ->. destruct Wd as (W1 & W2).
      assert (w mod 2 ^ 8 = w) as Ww by (apply Z.mod_small; lia).
      specialize (Hnew bit W1). set (v := h (bit / 8) / 2 ^ (bit mod 8)) in *.
      destruct first.
      + destruct H as (-> & H). unfold bitfield_detection at 2. cbn [Z.eqb Pos.eqb negb fields fidx pend].
        rewrite Nat.min_id, Nat.eqb_refl. cbn [andb].
        destruct (Nat.leb_spec depth (length G)) as [L|L]; cbn [mbind option_bind].
        * eexists. split; [done|]. cbn [fields fidx]. rewrite take_app_le, take_ge by lia. split; [done|]. split; [lia|]. split; [done|lia].
        * cbn [fields fidx pend]. unfold rd. rewrite lookup_app_r, Nat.sub_diag by lia. cbn [lookup list_lookup mbind option_bind].
          rewrite wr_Some by (rewrite app_length; cbn; lia). cbn [mbind option_bind].
          rewrite insert_app_r_alt, Nat.sub_diag by lia. cbn [insert list_insert].
          cbn [fname ftype fmr_type fclass foffset fwidth fshift finit]. rewrite Hnew, Ww.
          destruct (Gs (G ++ [Fd nm ty BITFIELD C_NONE (new bit) w 0 false]) (S (length G)) p) as (s & -> & Fs & I1 & I2 & I3).
          { rewrite app_length. cbn. lia. }
          exists s. split; [done|]. rewrite Fs, <- app_assoc. split; [done|]. split; [lia|]. split; [done|lia].
      + destruct H as (P & HG & -> & H). subst G. unfold bitfield_detection at 2. cbn [Z.eqb Pos.eqb negb fields fidx pend].
        destruct (decide (length P < depth)%nat) as [L|L].
        * replace (depth - length P)%nat with (S (depth - S (length P))) by lia. cbn [take map firstn].
          rewrite Nat.min_l by (rewrite app_length; lia).
          destruct (Nat.eqb_spec (length P) (length (P ++ bf old (ty, nm, w, bit) :: map (bf old) (take (depth - S (length P)) (omap bitdesc es))))) as [X|X].
          { rewrite app_length in X. cbn in X. lia. }
          cbn [andb fields fidx pend]. unfold rd. rewrite lookup_app_r, Nat.sub_diag by lia. cbn [lookup list_lookup mbind option_bind].
          rewrite wr_Some by (rewrite app_length; cbn; lia). cbn [mbind option_bind].
          rewrite insert_app_r_alt, Nat.sub_diag by lia. cbn [insert list_insert bf].
          cbn [fname ftype fmr_type fclass foffset fwidth fshift finit]. rewrite Hnew.
          destruct (Gs (P ++ bf new (ty, nm, w, bit) :: map (bf old) (take (depth - S (length P)) (omap bitdesc es))) (S (length P)) p) as (s & Cs & Fs & I1 & I2 & I3).
          { exists (P ++ [bf new (ty, nm, w, bit)]). rewrite app_length, Nat.add_1_r, <- app_assoc. split; [done|]. lia. }
          cbn [bf] in Cs. rewrite Cs.
          exists s. split; [done|]. rewrite Fs. split; [|split; [lia|split; [done|lia]]].
          change (bf new (ty, nm, w, bit) :: ?l) with ([bf new (ty, nm, w, bit)] ++ l). rewrite app_assoc.
          rewrite take_app_alt by (rewrite app_length; cbn; lia). rewrite <- app_assoc, take_app. done.
        * replace (depth - length P)%nat with 0%nat by lia. cbn [take map firstn]. rewrite !app_nil_r, Nat.min_id, Nat.eqb_refl.
          rewrite (proj2 (Nat.leb_le _ _)) by lia. cbn [andb mbind option_bind].
          eexists. split; [done|]. cbn [fields fidx]. rewrite take_ge by lia. split; [done|]. split; [lia|]. split; [done|lia].
  Qed.

  Definition a_of (k : Z) (bit : Z) : Z := bit / 8 / 2 ^ k.

  Lemma all_ones j x : 0 <= j < 8 -> ((- (x mod 2)) mod 2 ^ 8 / 2 ^ j) mod 2 = x mod 2.
  Proof.
    intros H. assert (x mod 2 = 0 \/ x mod 2 = 1) as [E|E] by (pose proof (Z.mod_pos_bound x 2); lia); rewrite E; clear E.
    all: assert (j = 0 \/ j = 1 \/ j = 2 \/ j = 3 \/ j = 4 \/ j = 5 \/ j = 6 \/ j = 7) as D by lia; destruct_or! D; subst j; done.
  Qed.

  Lemma a_of_step k bit : 0 <= k -> 0 <= bit < 8 * n ->
    (a_of (k + 1) bit * 2) mod 2 ^ 64 + a_of k bit mod 2 = a_of k bit.
  Proof.
    intros Hk Hb. unfold a_of. pose proof (Z.pow_pos_nonneg 2 k ltac:(lia) Hk).
    rewrite Z.pow_add_r, Z.pow_1_r by lia. rewrite <- Z.div_div by lia. set (q := bit / 8 / 2 ^ k).
    assert (0 <= q <= bit) as Q.
    { unfold q. assert (0 <= bit / 8 <= bit). { split; [apply Z.div_pos; lia|]. apply Z.div_le_upper_bound; lia. }
      split; [apply Z.div_pos; lia|]. apply Z.div_le_upper_bound; [lia|]. nia. }
    pose proof (Z.div_mod q 2 ltac:(lia)). pose proof (Z.mod_pos_bound q 2 ltac:(lia)). rewrite Z.mod_small by lia. lia.
  Qed.

  Notation L := (omap bitdesc ds).

  Lemma round (first : bool) (h old new : Z -> Z) F s : (length F <= depth)%nat ->
    (forall bit, 0 <= bit < 8 * n -> ((if first then 0 else old bit) * 2) mod 2 ^ 64 + h (bit / 8) / 2 ^ (bit mod 8) mod 2 = new bit) ->
    fields s = (if first then F else F ++ map (bf old) (take (depth - length F) L)) ->
    exists s', bit_pass ldb depth (length F) ds (sample n h) s = Some s' /\
      fields s' = F ++ map (bf new) (take (depth - length F) L) /\ (fidx s' = length F <-> L = []).
  Proof.
    intros D Hnew Fs. destruct (bit_all first h old new ds Hnew W) as (lss & E & G).
    unfold bit_pass, dump_struct. rewrite E. cbn [mbind option_bind].
    destruct (G (fields s) (length F) (pend s)) as (s' & -> & Fs' & I1 & I2 & I3).
    { rewrite Fs. destruct first; [done|]. by exists F. }
    exists s'. split; [done|]. split.
    - rewrite Fs', Fs. destruct first.
      + rewrite take_app_ge by lia. f_equal. apply firstn_map.
      + rewrite take_app. done.
    - split; [|done]. intros X. destruct L; [done|]. specialize (I3 ltac:(done)). lia.
  Qed.

  Notation hk k := (fun a => (- ((a / 2 ^ k) mod 2)) mod 2 ^ 8).

  Lemma new_bit k bit x : 0 <= k -> 0 <= bit < 8 * n -> (x * 2) mod 2 ^ 64 + a_of k bit mod 2 = a_of k bit ->
    (x * 2) mod 2 ^ 64 + hk k (bit / 8) / 2 ^ (bit mod 8) mod 2 = a_of k bit.
  Proof.
    intros Hk Hb E. cbv beta. rewrite all_ones by (apply Z.mod_pos_bound; lia). done.
  Qed.

  Lemma bit_rounds F k : (length F <= depth)%nat -> forall m s, length m = Z.to_nat n -> (Z.of_nat k = 0 \/ 2 ^ (Z.of_nat k - 1) <= n) ->
    fields s = F ++ map (bf (a_of (Z.of_nat k))) (take (depth - length F) L) -> (fidx s = length F <-> L = []) -> L <> [] ->
    exists s', bit_passes ldb k depth (length F) ds m s = Some s' /\
      fields s' = F ++ map (bf (a_of 0)) (take (depth - length F) L) /\ (fidx s' = length F <-> L = []).
  Proof.
    intros D. induction k as [|k IH]; intros m s Lm K Fs Ix NL.
    - exists s. split; [done|]. split; [|done]. done.
    - cbn [bit_passes]. rewrite (fill_sample (fun i => - (i mod 2)) (2 ^ Z.of_nat k) n) by (try done; try lia;
        replace (Z.of_nat (S k) - 1) with (Z.of_nat k) in K by lia; pose proof (Z.pow_pos_nonneg 2 (Z.of_nat k)); lia).
      cbn [mbind option_bind].
      destruct (round false (hk (Z.of_nat k)) (a_of (Z.of_nat (S k))) (a_of (Z.of_nat k)) F s D) as (s' & E & Fs' & Ix').
      { intros bit Hb. apply new_bit; [lia|done|]. replace (Z.of_nat (S k)) with (Z.of_nat k + 1) by lia. apply a_of_step; [lia|done]. }
      { done. }
      rewrite E. cbn [mbind option_bind]. destruct (Nat.eqb_spec (fidx s') (length F)) as [X|X]; [by apply Ix' in X|].
      apply IH; try done; [apply sample_length|].
      destruct (decide (Z.of_nat k = 0)); [by left|]. right. destruct K as [K|K]; [lia|].
      replace (Z.of_nat (S k) - 1) with (Z.of_nat k) in K by lia.
      assert (2 ^ (Z.of_nat k - 1) <= 2 ^ Z.of_nat k) by (apply Z.pow_le_mono_r; lia). lia.
  Qed.

  Lemma constant_sample c : replicate (Z.to_nat n) c = sample n (fun _ => c).
  Proof.
    apply sample_eq; [apply replicate_length|]. intros i Hi. apply lookup_replicate_2. lia.
  Qed.

  Lemma pattern j : 0 <= j < 8 -> (240 / 2 ^ j mod 2 = j / 4 /\ 204 / 2 ^ j mod 2 = j / 2 mod 2 /\ 170 / 2 ^ j mod 2 = j mod 2).
  Proof.
    intros H. assert (j = 0 \/ j = 1 \/ j = 2 \/ j = 3 \/ j = 4 \/ j = 5 \/ j = 6 \/ j = 7) as X by lia; destruct_or! X; subst j; done.
  Qed.

  Lemma bits_found : map split_offset (map (bf id) L) = omap bitfield ds.
  Proof.
    clear St W. induction ds as [|d es IH]; [done|]. destruct d; cbn [omap list_omap bitdesc bitfield]; [exact IH..| |exact IH].
    cbn [map]. rewrite IH. done.
  Qed.

  Theorem add_type_spec : add_type ldb depth n ds = Some (take depth (omap regular ds ++ omap bitfield ds)).
  Proof.
    unfold add_type.
    replace (map (fun i => i mod 2 ^ 8) (seqZ 0 n)) with (sample n (fun a => a / 256 ^ 0 mod 2 ^ 8)).
    2:{ apply sample_ext. intros a. rewrite Z.div_1_r. done. }
    destruct (passes_spec 4 0 (Ctx [] 0 None)) as (s & -> & Fs); [lia|lia|by left|done|]. cbn [mbind option_bind].
    set (F := fields s) in *. assert (length F <= depth)%nat as D by (rewrite Fs, take_length; lia).
    set (k := Z.to_nat (Z.log2 (Z.max 1 (n - 1)))).
    assert (Z.of_nat k = Z.log2 (Z.max 1 (n - 1))) as Ek by (apply Z2Nat.id, Z.log2_nonneg).
    pose proof (Z.log2_spec (Z.max 1 (n - 1)) ltac:(lia)) as [K1 K2]. rewrite <- Ek in K1, K2.
    assert (2 ^ Z.of_nat k <= n) as K3 by lia. pose proof (Z.pow_pos_nonneg 2 (Z.of_nat k) ltac:(lia) ltac:(lia)).
    assert (length (sample n (fun a => a / 256 ^ 0 mod 2 ^ 8)) = Z.to_nat n) as Lm by apply sample_length.
    set (m := sample n (fun a => a / 256 ^ 0 mod 2 ^ 8)) in *. cbn [bit_passes].
    rewrite (fill_sample (fun i => - (i mod 2)) (2 ^ Z.of_nat k) n) by (done || lia). cbn [mbind option_bind].
    destruct (round true (hk (Z.of_nat k)) id (a_of (Z.of_nat k)) F s D) as (s1 & E1 & Fs1 & Ix1).
    { intros bit Hb. apply new_bit; [lia|done|]. apply Z.mod_small. unfold a_of. split; [apply Z.div_pos; [apply Z.div_pos; lia|lia]|].
      apply Z.div_lt_upper_bound; [lia|]. assert (bit / 8 < n) by (apply Z.div_lt_upper_bound; lia).
      assert (0 <= bit / 8) by (apply Z.div_pos; lia).
      rewrite Z.pow_succ_r in K2 by lia. lia. }
    { done. }
    rewrite E1. cbn [mbind option_bind].
    destruct (Nat.eqb_spec (fidx s1) (length F)) as [X|X].
    - cbn [mbind option_bind]. rewrite (proj2 (Nat.eqb_eq _ _) X). apply Ix1 in X. rewrite Fs1, X. f_equal.
      rewrite <- bits_found, X. cbn [map]. rewrite take_nil. cbn. rewrite !app_nil_r. done.
    - assert (L <> []) as NL by (intros Y; apply X, Ix1, Y).
      destruct (bit_rounds F k D (sample n (hk (Z.of_nat k))) s1 (sample_length _ _)) as (s2 & E2 & Fs2 & Ix2); [|done|done|done|].
      { destruct (decide (Z.of_nat k = 0)); [by left|]. right.
        assert (2 ^ (Z.of_nat k - 1) <= 2 ^ Z.of_nat k) by (apply Z.pow_le_mono_r; lia). lia. }
      rewrite E2. cbn [mbind option_bind]. destruct (Nat.eqb_spec (fidx s2) (length F)) as [Y|Y]; [by apply Ix2 in Y|].
      rewrite !constant_sample.
      assert (forall bit, 0 <= bit < 8 * n -> 0 <= bit / 8 /\ bit = 8 * (bit / 8) + bit mod 8 /\ 0 <= bit mod 8 < 8 /\ bit < 2 ^ 27) as Bd.
      { intros bit Hb. pose proof (Z.div_mod bit 8 ltac:(lia)). pose proof (Z.mod_pos_bound bit 8 ltac:(lia)). split; [apply Z.div_pos; lia|]. lia. }
      destruct (round false (fun _ => 240) (a_of 0) (fun bit => bit / 4) F s2 D) as (s3 & -> & Fs3 & _).
      { intros bit Hb. destruct (Bd bit Hb) as (B0 & B1 & B2 & B3). destruct (pattern (bit mod 8) B2) as (-> & _).
        unfold a_of. rewrite Z.div_1_r, Z.mod_small by lia. set (j := bit mod 8) in *. set (a := bit / 8) in *.
        apply (Z.div_unique_pos _ _ _ (j mod 4)); [apply Z.mod_pos_bound; lia|]. pose proof (Z.div_mod j 4 ltac:(lia)). lia. }
      { done. }
      cbn [mbind option_bind].
      destruct (round false (fun _ => 204) (fun bit => bit / 4) (fun bit => bit / 2) F s3 D) as (s4 & -> & Fs4 & _).
      { intros bit Hb. destruct (Bd bit Hb) as (B0 & B1 & B2 & B3). destruct (pattern (bit mod 8) B2) as (_ & -> & _).
        pose proof (Z.div_mod bit 4 ltac:(lia)). pose proof (Z.mod_pos_bound bit 4 ltac:(lia)).
        rewrite (Z.mod_small (bit / 4 * 2)) by lia.
        pose proof (Z.div_mod (bit mod 8) 2 ltac:(lia)). pose proof (Z.mod_pos_bound (bit mod 8) 2 ltac:(lia)).
        pose proof (Z.div_mod (bit mod 8 / 2) 2 ltac:(lia)). pose proof (Z.mod_pos_bound (bit mod 8 / 2) 2 ltac:(lia)).
        pose proof (Z.div_mod bit 2 ltac:(lia)). pose proof (Z.mod_pos_bound bit 2 ltac:(lia)).
        lia. }
      { done. }
      cbn [mbind option_bind].
      destruct (round false (fun _ => 170) (fun bit => bit / 2) id F s4 D) as (s5 & -> & Fs5 & _).
      { intros bit Hb. destruct (Bd bit Hb) as (B0 & B1 & B2 & B3). destruct (pattern (bit mod 8) B2) as (_ & _ & ->). unfold id.
        pose proof (Z.div_mod bit 2 ltac:(lia)). pose proof (Z.mod_pos_bound bit 2 ltac:(lia)).
        rewrite (Z.mod_small (bit / 2 * 2)) by lia.
        pose proof (Z.div_mod (bit mod 8) 2 ltac:(lia)). pose proof (Z.mod_pos_bound (bit mod 8) 2 ltac:(lia)). lia. }
      { done. }
      cbn [mbind option_bind]. f_equal. rewrite Fs5, take_app, drop_app.
      rewrite <- (firstn_map (bf id)), <- (firstn_map split_offset), bits_found.
      destruct (decide (length (omap regular ds) <= depth)%nat) as [R|R].
      + rewrite take_ge in Fs by done. rewrite Fs. rewrite take_app_ge by done. done.
      + rewrite take_app_le by lia. rewrite Fs at 2. rewrite take_length, Nat.min_l, Nat.sub_diag by lia. cbn. rewrite app_nil_r. done.
  Qed.
End Whole.
