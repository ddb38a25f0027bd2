(** C20-C22, C25, C51: string and character literals of the JSON, CINIT and SCM
    formats. *)
From Verif Require Import Base NumStr NumStrProof Quote QuoteProof.
Local Open Scope Z_scope.

(** isprint of the C locale, for the examples. *)
Definition c_print (c : Z) : bool := (32 <=? c) && (c <=? 126).

(** C20: JSON strings are read back, whatever follows and whatever the locale
    calls printable; only printable characters are written. *)
Theorem C20_json_string_round_trip : forall isprint s rest,
  Forall (fun c => 1 <= c < 256) s ->
  read_string JSON (quote_string JSON isprint s ++ rest) = Some (s, rest) /\
  Forall (fun x => isprint x = true \/ 32 < x < 127) (quote_string JSON isprint s).
Proof.
  intros ip s rest H.
  assert (Forall is_byte s) by (eapply Forall_impl; [exact H|]; unfold is_byte; intros; lia).
  split; [by apply read_quoted|by apply quoted_chars].
Qed.
Print Assumptions C20_json_string_round_trip.

(** ESC, digit, quote, backslash, newline, byte 200, letter u. *)
Example C20_case : read_string JSON (quote_string JSON c_print [27; 49; 34; 92; 10; 200; 117] ++ [44; 34]) =
  Some ([27; 49; 34; 92; 10; 200; 117], [44; 34]) /\
  quote_string JSON c_print [27; 49; 34] = [34; 92; 117; 48; 48; 49; 98; 49; 92; 34; 34].
Proof. by vm_compute. Qed.

(** C21: a CINIT string is read back exactly when no character written as an
    octal escape is followed by a (printable) octal digit. *)
Theorem C21_cinit_string_exact : forall isprint s rest,
  Forall (fun c => 1 <= c < 256) s ->
  (read_string CINIT (quote_string CINIT isprint s ++ rest) = Some (s, rest) <->
   (forall i c d, s !! i = Some c -> s !! S i = Some d ->
      isprint c = false -> c ∉ [7; 8; 9; 10; 11; 12; 13; 92; 34] -> isprint d = true -> ~ (48 <= d <= 55))).
Proof.
  intros ip s rest H.
  assert (Hb : Forall is_byte s) by (eapply Forall_impl; [exact H|]; unfold is_byte; intros; lia).
  rewrite (cinit_exact ip s rest Hb). unfold octal_safe.
  split; intros Ho i c d Hc Hd Ip.
  - intros Hn. apply (Ho i c d Hc Hd Ip); [|intros ->; apply Hn; rewrite !elem_of_cons; auto 20].
    destruct (decide (esc_char_map c = 0)) as [E|E]; [done|]. destruct Hn. apply esc_cases in E.
    rewrite !elem_of_cons in *. tauto.
  - intros E N. apply (Ho i c d Hc Hd Ip). intros Hin. rewrite !elem_of_cons, elem_of_nil in Hin.
    repeat destruct Hin as [-> |Hin]; done.
Qed.
Print Assumptions C21_cinit_string_exact.

(** C21 without the condition is false: ESC followed by the digit 1. *)
Theorem C21_cinit_string_refuted : exists s, Forall (fun c => 1 <= c < 256) s /\
  read_string CINIT (quote_string CINIT c_print s) = Some ([217], []) /\ s = [27; 49].
Proof. exists [27; 49]. split; [repeat constructor; lia|by vm_compute]. Qed.
Print Assumptions C21_cinit_string_refuted.

Example C21_case :
  read_string CINIT (quote_string CINIT c_print [27; 57; 27; 97; 10; 49; 34; 92; 55; 200] ++ [44]) =
    Some ([27; 57; 27; 97; 10; 49; 34; 92; 55; 200], [44]).
Proof. by vm_compute. Qed.

(** C22: SCM strings are read back. *)
Theorem C22_scm_string_round_trip : forall isprint s rest,
  Forall (fun c => 1 <= c < 256) s ->
  read_string SCM (quote_string SCM isprint s ++ rest) = Some (s, rest) /\
  Forall (fun x => isprint x = true \/ 32 < x < 127) (quote_string SCM isprint s).
Proof.
  intros ip s rest H.
  assert (Forall is_byte s) by (eapply Forall_impl; [exact H|]; unfold is_byte; intros; lia).
  split; [by apply read_quoted|by apply quoted_chars].
Qed.
Print Assumptions C22_scm_string_round_trip.

Example C22_case : read_string SCM (quote_string SCM c_print [27; 49; 59; 34; 92; 10; 200; 120] ++ [41]) =
  Some ([27; 49; 59; 34; 92; 10; 200; 120], [41]) /\
  quote_string SCM c_print [27; 59] = [34; 92; 120; 49; 98; 59; 59; 34].
Proof. by vm_compute. Qed.

(** C25: every character printed as a CINIT character literal is read back. *)
Theorem C25_cinit_char_round_trip : forall isprint c rest,
  0 <= c < 256 -> isprint 0 = false ->
  cinit_read_char (cinit_print_char isprint c ++ rest) = Some (c, rest).
Proof. intros ip c rest H _. by apply cinit_char_ok. Qed.
Print Assumptions C25_cinit_char_round_trip.

(** C25: every character printed as an SCM character literal is read back when
    the next character is not a hexadecimal digit (the writer puts a separator
    there). *)
Theorem C25_scm_char_round_trip : forall isprint c rest,
  0 <= c < 256 -> isprint 0 = false -> isprint 10 = false ->
  (forall x, head rest = Some x -> ~ (48 <= x <= 57 \/ 65 <= x <= 70 \/ 97 <= x <= 102)) ->
  scm_read_char (scm_print_char isprint c ++ rest) = Some (c, rest).
Proof.
  intros ip c rest H _ H10 Hr. apply scm_char_ok; [done|done|]. destruct rest as [|x rest]; [done|].
  specialize (Hr x eq_refl). unfold isxdigit, isdigit. lia.
Qed.
Print Assumptions C25_scm_char_round_trip.

(** Quote, backslash, NUL, newline, byte 255, letter x before a parenthesis. *)
Example C25_case :
  map (fun c => cinit_read_char (cinit_print_char c_print c ++ [44])) [39; 92; 0; 10; 255; 120] =
    map (fun c => Some (c, [44])) [39; 92; 0; 10; 255; 120] /\
  map (fun c => scm_read_char (scm_print_char c_print c ++ [41])) [39; 92; 0; 10; 255; 120] =
    map (fun c => Some (c, [41])) [39; 92; 0; 10; 255; 120].
Proof. by vm_compute. Qed.

(** C51: on any literal followed by at least one more byte (the closing quote)
    the unquote loops terminate, stay within the text, and store at most as
    many characters as the literal has, so [length + 1] bytes are enough. *)
Theorem C51_unquote_safe : forall k text n,
  (n < length text)%nat ->
  exists r, unquote_loop k (S n) text n 0 = Some r /\ (length r <= n)%nat.
Proof.
  intros k text n H. destruct (unquote_safe k (S n) text n 0 H ltac:(lia)) as (r & E & L).
  exists r. split; [done|lia].
Qed.
Print Assumptions C51_unquote_safe.

(** Malformed literals: a lone backslash, an escape without digits. *)
Example C51_case : unquote_loop JSON 4 [92; 117; 92; 34] 3 0 = Some [117; 34] /\
  unquote_loop SCM 5 [120; 92; 120; 52; 34] 4 0 = Some [120; 4].
Proof. by vm_compute. Qed.
