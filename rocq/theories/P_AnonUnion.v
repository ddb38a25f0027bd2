(** C48: anonymous unions (src/metaresc.c:851-938, 1587-1602). *)
From Verif Require Import Base AnonUnion AnonUnionProof.
Local Open Scope nat_scope.

(** C48: for every list of fields with well nested unions, to any depth:
    - the struct keeps, in order, its ordinary fields and one field for every
      union, and its array is NULL terminated;
    - a description is added for every union, inner ones first; its fields are
      the members, in order, of the union (with one field for every union inside
      it), NULL terminated, inside the same array; the names are different;
    - the size of a union is the largest size of its members;
    - an ordinary field keeps its offset; a union gets the (last non-zero) offset of its
      members, and everything in the union gets offset 0;
    - the meta data of a union is that of the end of the union;
    - nothing else changes. *)
Theorem C48_extract : forall k l off0 sz0,
  wf k l -> NoDup (flat l) ->
  exists s, init_struct k (State (map Some (flat l) ++ [None]) off0 sz0 id []) = Some (s, length l, true) /\
    length (arr s) = length (flat l) + 1 /\
    take (length l + 1) (arr s) = map Some (heads l) ++ [None] /\
    Forall2 (reads_as (arr s)) (types s) (unions l) /\
    NoDup (map td_name (types s)) /\
    map td_size (types s) = map (fun un => max_sz sz0 (flat (snd (fst un)))) (unions l) /\
    (forall f, Fld f ∈ l -> off s f = off0 f) /\
    (forall u its c, Un u its c ∈ l ->
       off s u = last_nz off0 (off0 u) (flat its) /\ (forall x, x ∈ flat its -> off s x = 0)) /\
    (forall u its c, (u, its, c) ∈ unions l -> sz s u = max_sz sz0 (flat its) /\ meta s u = c) /\
    (forall x, x ∉ flat l -> off s x = off0 x) /\
    (forall x, (forall its c, (x, its, c) ∉ unions l) -> sz s x = sz0 x /\ meta s x = x).
Proof.
  intros k l off0 sz0 Hw Hnd. unfold init_struct. cbn [arr].
  pose proof (count_ok [] [] (flat l) [] (S (length (map Some (flat l) ++ [None])))) as Hc.
  cbn [app map length Nat.add] in Hc. rewrite Hc by (rewrite app_length, map_length; lia). cbn [mbind option_bind].
  destruct (extract_ok k (S (length (map Some (flat l) ++ [None]))) l
              (State (map Some (flat l) ++ [None]) off0 sz0 id []) [] [] [] 0 [] (length (flat l)) 0)
    as (s & E & Ha & (R1 & R2 & R3 & R4 & R5 & R6)); try done.
  { rewrite app_length, map_length. cbn. lia. }
  cbn [types off sz meta app length Nat.add map] in *. unfold id in *. exists s. split; [exact E|].
  pose proof (lay_length l) as Hl.
  split. { rewrite Ha, app_nil_r, app_length. cbn. unfold heads. rewrite !map_length. lia. }
  split. { rewrite Ha. change (None :: lay l ++ []) with ([None] ++ lay l ++ []). rewrite app_assoc.
           replace (length l + 1) with (length (map Some (heads l) ++ [@None nat])) by (unfold heads; rewrite app_length, !map_length; done).
           by rewrite take_app. }
  split. { rewrite R1. by apply (tys_reads sz0 l (arr s) [] [] []). }
  split. { rewrite R1. apply tys_names. }
  split. { rewrite R1. apply tys_sizes. }
  split; [done|]. split; [|done]. intros u its c Hu. destruct (R4 u its c Hu) as (H1 & H2 & _). done.
Qed.
Print Assumptions C48_extract.

(** In C all members of a union start at one offset [o]; descriptors of void
    fields and of the markers have offset 0.  The union is then put at [o]. *)
Corollary C48_union_offset : forall of_ d l o,
  o <> 0 -> (forall x, x ∈ l -> of_ x = o \/ of_ x = 0) -> (exists x, x ∈ l /\ of_ x = o) -> last_nz of_ d l = o.
Proof.
  intros of_ d l o Ho Hall Hex.
  assert (Hkeep : forall l, (forall x, x ∈ l -> of_ x = o \/ of_ x = 0) -> last_nz of_ o l = o).
  { clear l Hall Hex. intros l. induction l as [|f l IH]; intros H; [done|]. cbn. fold (last_nz of_ (if Nat.eqb (of_ f) 0 then o else of_ f) l).
    destruct (H f) as [-> | ->]; [by left| |].
    - rewrite (proj2 (Nat.eqb_neq o 0) Ho). apply IH. intros x Hx. apply H. by right.
    - cbn. apply IH. intros x Hx. apply H. by right. }
  revert d. induction l as [|f l IH]; intros d; [destruct Hex as (x & Hx & _); by apply elem_of_nil in Hx|].
  cbn. fold (last_nz of_ (if Nat.eqb (of_ f) 0 then d else of_ f) l).
  assert (Hall' : forall x, x ∈ l -> of_ x = o \/ of_ x = 0) by (intros x Hx; apply Hall; by right).
  destruct (Hall f) as [Ef | Ef]; [by left| |]; rewrite Ef.
  - rewrite (proj2 (Nat.eqb_neq o 0) Ho). by apply Hkeep.
  - cbn. apply IH; [done|]. destruct Hex as (x & Hx & Ex). apply elem_of_cons in Hx as [->|Hx]; [congruence|]. by exists x.
Qed.
Print Assumptions C48_union_offset.

(** C48: whatever the order of fields and markers, well nested or not, the
    extraction ends and no access is outside the array; the array keeps its
    length and the struct's part of it stays NULL terminated. *)
Theorem C48_extract_inside : forall k l off0 sz0,
  exists s n ok fs rest, init_struct k (State (map Some l ++ [None]) off0 sz0 id []) = Some (s, n, ok) /\
    n = length fs /\ arr s = map Some fs ++ None :: rest /\ length (arr s) = length l + 1.
Proof.
  intros k l off0 sz0. unfold init_struct. cbn [arr].
  pose proof (count_ok [] [] l [] (S (length (map Some l ++ [None])))) as Hc.
  cbn [app map length Nat.add] in Hc. rewrite Hc by (rewrite app_length, map_length; lia). cbn [mbind option_bind].
  destruct (extract_safe k (S (length (map Some l ++ [None]))) l
              (State (map Some l ++ [None]) off0 sz0 id []) [] [] [] 0 [] (length l) 0)
    as (s & b & l' & rest & E & Ha & Hl); try done.
  { rewrite app_length, map_length. cbn. lia. }
  exists s, (length l'), b, l', rest. cbn [app map length Nat.add] in *. rewrite app_nil_r in Ha.
  split; [done|]. split; [done|]. split; [done|]. rewrite Ha, app_length, map_length. cbn. lia.
Qed.
Print Assumptions C48_extract_inside.

(** A struct with a field, a union that contains a union, a field, another
    union and a field. *)
Definition ex_kind (x : nat) : kind :=
  if existsb (Nat.eqb x) [1; 3; 10] then Open else if existsb (Nat.eqb x) [6; 8; 12] then Close else Plain.
Definition ex_items : list item :=
  [Fld 0; Un 1 [Fld 2; Un 3 [Fld 4; Fld 5] 6; Fld 7] 8; Fld 9; Un 10 [Fld 11] 12; Fld 13].
Definition ex_off (x : nat) : nat := nth x [0; 0; 8; 0; 8; 8; 0; 8; 0; 16; 0; 24; 0; 32] 0.
Definition ex_sz (x : nat) : nat := nth x [8; 0; 4; 0; 8; 2; 0; 1; 0; 8; 0; 4; 0; 4] 0.
Example C48_case :
  wf ex_kind ex_items /\ NoDup (flat ex_items) /\ flat ex_items = seq 0 14 /\
  (r ← init_struct ex_kind (State (map Some (seq 0 14) ++ [None]) ex_off ex_sz id []);
   let '(s, n, ok) := r in Some (arr s, types s, map (off s) (seq 0 14), sz s 1, sz s 3, meta s 1, n, ok))
  = Some ([Some 0; Some 1; Some 9; Some 10; Some 13; None;
           Some 11; None; Some 2; Some 3; Some 7; None; Some 4; Some 5; None],
          [Td 3 [1; 1] 12 2 8; Td 1 [1] 8 3 8; Td 10 [3] 6 1 4],
          [0; 8; 0; 0; 0; 0; 0; 0; 0; 16; 24; 0; 0; 32], 8, 8, 8, 5, true) /\
  (* an unmatched opening marker *)
  (r ← init_struct ex_kind (State [Some 0; Some 1; Some 2; None] ex_off ex_sz id []);
   let '(s, n, ok) := r in Some (arr s, n, ok)) = Some ([Some 0; Some 1; Some 2; None], 3, false).
Proof.
  split; [cbn; tauto|]. split; [|split; [|split]]; try (vm_compute; reflexivity).
  change (flat ex_items) with (seq 0 14). apply NoDup_seq.
Qed.
