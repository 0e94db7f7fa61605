(** Properties C53 (indented output), C57 (trimming), C61 (PKCS5 padding). *)
From Verif Require Import Proofs.Lib Model.Includes Model.HumanReadable Spec.Nesting
  Proofs.IncludesP Proofs.HumanReadableP.

(** ** C53 *)
(** The text of any operation sequence is exactly one line per print, each behind the
    prefix and as many indents as its nesting level. *)
Theorem C53_output : forall pre ind ops,
  rendered pre ind ops (hr_data (hr_run (hr_new pre ind) ops)).
Proof. exact hr_rendered. Qed.

(** The level is the nesting level of the operations so far, never negative. *)
Theorem C53_level : forall pre ind ops,
  nesting ops (Z.of_nat (hr_level (hr_run (hr_new pre ind) ops))).
Proof. intros. now apply level_nesting. Qed.

(** The other constructor only chooses the indent and prefix. *)
Theorem C53_constructor : forall n d c,
  hr_new_size n d c = hr_new (times d (repeat c n)) (repeat c n).
Proof. intros. unfold hr_new_size, hr_new. now rewrite dup_times. Qed.

Example C53_ex :
  hr_data (hr_run (hr_new (str "> ") (str "  "))
    [OpPrint (str "a"); OpUp; OpDown; OpPrint (str "b"); OpUp; OpUp; OpPrint (str "c")])
  = str "> a" ++ [10] ++ str ">   b" ++ [10] ++ str "> c" ++ [10].
Proof. reflexivity. Qed.

(** ** C57 *)
(** Whitespace: space and \t \n \v \f \r. *)
Definition is_space (c : N) : Prop := c = 32 \/ (9 <= c <= 13).

Theorem C57_trim : forall s front back, len s < two64 - 1 ->
  exists a t b, trim_whitespace s front back = Ok t /\ s = a ++ t ++ b /\
    Forall is_space a /\ Forall is_space b /\
    (if front then (forall c r, t = c :: r -> ~ is_space c) else a = []) /\
    (if back then (forall c r, t = r ++ [c] -> ~ is_space c) else b = []).
Proof.
  assert (W : forall c, mem_char c whitespace = true <-> is_space c).
  { intros c. unfold mem_char, whitespace, is_space. cbn [existsb]. lia. }
  intros s front back H. destruct (trim_spec whitespace s front back H) as (a & t & b & E & S & F & A & B).
  exists a, t, b. apply Forall_app in F as [Fa Fb]. split; auto. split; auto.
  split; [eapply Forall_impl; [|apply Fa]; intros; now apply W|].
  split; [eapply Forall_impl; [|apply Fb]; intros; now apply W|]. split.
  - destruct front; auto. intros c r -> Hc. apply W in Hc. cbn [head_ok] in A. congruence.
  - destruct back; auto. intros c r -> Hc. apply W in Hc. rewrite rev_app_distr in B. cbn [rev app head_ok] in B. congruence.
Qed.

Theorem C57_trim_idempotent : forall s front back t, len s < two64 - 1 ->
  trim_whitespace s front back = Ok t -> trim_whitespace t front back = Ok t.
Proof. intros s f b t. apply trim_idempotent. Qed.

Example C57_ex : trim_whitespace (str " 	 a b  ") true true = Ok (str "a b") /\
  trim_whitespace (str "   ") false true = Ok [] /\ trim_whitespace (str " a ") true false = Ok (str "a ").
Proof. repeat split; reflexivity. Qed.

(** ** C61 *)
(** The property fails: data that already is a whole number of blocks gets no padding, so
    removal may strip real data (finding F3). *)
Theorem C61_pkcs5_refuted : exists s b e, octets s /\ 0 < b < 256 /\
  pkcs5 s b = Ok e /\ remove_pkcs5 e <> Ok s.
Proof.
  exists [5; 6; 7; 8; 9; 10; 11; 1], 8, [5; 6; 7; 8; 9; 10; 11; 1].
  split; [repeat constructor; lia|]. split; [lia|]. split; [reflexivity|]. discriminate.
Qed.

(** For block sizes that do not divide 2^64 the size_t subtraction wraps and the result is
    not even a multiple of the block size (finding F4). *)
Theorem C61_pkcs5_length_refuted : exists s b e, octets s /\ 0 < b < 256 /\
  pkcs5 s b = Ok e /\ len e mod b <> 0.
Proof.
  exists [1; 2; 3; 4], 3, [1; 2; 3; 4]. 
  split; [repeat constructor; lia|]. split; [lia|]. split; [reflexivity|]. discriminate.
Qed.

(** What holds: for data that is not a whole number of blocks, and block sizes dividing
    2^64 (or data shorter than a block), padding is removed exactly. *)
Theorem C61_pkcs5_partial : forall s b, octets s -> 0 < b < 256 -> len s < two64 ->
  (len s < b \/ two64 mod b = 0) -> len s mod b <> 0 ->
  exists e, pkcs5 s b = Ok e /\ len e mod b = 0 /\ len s < len e /\ remove_pkcs5 e = Ok s.
Proof. exact pkcs5_roundtrip. Qed.

Example C61_ex : pkcs5 [9; 9; 9] 8 = Ok [9; 9; 9; 5; 5; 5; 5; 5] /\
  (two64 mod 8 = 0) /\ (len [9;9;9] mod 8 <> 0).
Proof. repeat split; try reflexivity. discriminate. Qed.

Print Assumptions C53_output.
Print Assumptions C53_level.
Print Assumptions C53_constructor.
Print Assumptions C57_trim.
Print Assumptions C57_trim_idempotent.
Print Assumptions C61_pkcs5_refuted.
Print Assumptions C61_pkcs5_length_refuted.
Print Assumptions C61_pkcs5_partial.
