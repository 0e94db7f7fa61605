(** C16-C18: cipher feedback modes, for every block function. *)
From Verif Require Import Spec.Cfb Proofs.CfbP.

Section props.
  Variables (c : cipher) (bs : nat) (E : bytes -> bytes).
  Hypothesis HE : enciphers c bs E.
  Hypothesis Hbs : (2 <= bs)%nat.
  Hypothesis Hfit : N.of_nat bs < two64.

  (** C16: decrypting gives back the prefix, its last two octets and the plaintext. *)
  Theorem C16_roundtrip tag data pre extra : tag = 9 \/ tag = 18 ->
    length pre = bs -> (2 <= length extra)%nat -> len data + N.of_nat bs + 2 < two64 ->
    exists y, ocfb_encrypt c tag data (pre ++ extra) = Ok y /\
              ocfb_decrypt c tag y = Ok (pre ++ last_two pre ++ data).
  Proof. destruct HE as (A & B & C). now apply (ocfb_roundtrip E bs). Qed.

  (** C16: the ciphertext is the one RFC 4880 describes. *)
  Theorem C16_standard_mode tag data pre extra : tag = 9 \/ tag = 18 ->
    length pre = bs -> (2 <= length extra)%nat ->
    ocfb_encrypt c tag data (pre ++ extra) = Ok (openpgp_cfb E bs (tag =? 9) pre data).
  Proof. destruct HE as (A & B & C). now apply ocfb_encrypt_ok. Qed.

  (** C16: a prefix without room for the repeated octets is refused. *)
  Theorem C16_short_prefix tag data pre : (length pre < bs + 2)%nat ->
    ocfb_encrypt c tag data pre = Throw ERuntime.
  Proof.
    intros H. destruct HE as (A & _). unfold ocfb_encrypt. rewrite A.
    replace (len pre <? N.of_nat bs + 2) with true by (unfold len; lia). reflexivity.
  Qed.

  (** C16: only the two encrypted data packets have such a mode; any other tag is refused. *)
  Theorem C16_other_packet tag data pre : tag <> 9 -> tag <> 18 ->
    ocfb_encrypt c tag data pre = Throw ERuntime.
  Proof.
    intros H9 H18. destruct (Nat.lt_ge_cases (length pre) (bs + 2)) as [S|L]; [now apply C16_short_prefix|].
    destruct HE as (A & B & C). rewrite <- (firstn_skipn bs pre).
    apply (ocfb_other E bs); auto; rewrite ?firstn_length, ?skipn_length; lia.
  Qed.

  (** C17: plain CFB. *)
  Theorem C17_roundtrip data iv : length iv = bs ->
    exists y, ncfb_encrypt c data iv = Ok y /\ len y = len data /\ ncfb_decrypt c y iv = Ok data.
  Proof.
    intros H. destruct HE as (A & B & C). exists (cfb_mode E bs iv data). split; [|split].
    - now apply ncfb_encrypt_ok.
    - unfold len. now rewrite cfb_length.
    - rewrite (ncfb_decrypt_ok E bs) by easy. now rewrite uncfb_cfb.
  Qed.
  Theorem C17_standard_mode data iv : length iv = bs ->
    ncfb_encrypt c data iv = Ok (cfb_mode E bs iv data).
  Proof. destruct HE as (A & B & C). now apply ncfb_encrypt_ok. Qed.
  Theorem C17_decrypt_length data iv : length iv = bs ->
    exists p, ncfb_decrypt c data iv = Ok p /\ len p = len data /\ ncfb_encrypt c p iv = Ok data.
  Proof.
    intros H. destruct HE as (A & B & C). exists (uncfb E bs iv data). split; [|split].
    - now apply (ncfb_decrypt_ok E bs).
    - unfold len. now rewrite uncfb_length.
    - rewrite (ncfb_encrypt_ok E bs) by easy. f_equal. eapply cfb_uncfb; eassumption.
  Qed.

  (** C18: decryption returns something exactly when the ciphertext is at least BS + 2 octets
      long and the two repeated octets match; in every other case it throws. *)
  Theorem C18_quick_check tag data : refuses_others c bs -> len data < two64 ->
    if Nat.leb (bs + 2) (length data) &&
       beq (last_two (opened_prefix E bs data)) (opened_repeat E bs data)
    then exists p, ocfb_decrypt c tag data = Ok (opened_prefix E bs data ++ opened_repeat E bs data ++ p)
         /\ len p = len data - N.of_nat bs - 2
    else exists e, ocfb_decrypt c tag data = Throw e.
  Proof. destruct HE as (A & B & C). now apply ocfb_check. Qed.
End props.

(** A concrete cipher object for the examples: eight-octet blocks, reversed and xored. *)
Definition demo_E (b : bytes) : bytes := xor (rev b) [1; 2; 3; 4; 5; 6; 7; 8].
Definition demo_cipher : cipher :=
  mkCipher 8 (fun b => if len b =? 8 then Ok (demo_E b) else Throw ERuntime) (fun b => Ok b).
Example demo_enciphers : enciphers demo_cipher 8 demo_E /\ refuses_others demo_cipher 8.
Proof.
  split; [split; [reflexivity|split]|].
  - intros b H. unfold demo_E. rewrite xor_length, rev_length, H. reflexivity.
  - intros b H. cbn [c_encrypt demo_cipher]. unfold len. rewrite H. reflexivity.
  - intros b H. cbn [c_encrypt demo_cipher]. replace (len b =? 8) with false by (unfold len; lia). reflexivity.
Qed.
Example C16_ex :
  (y <- ocfb_encrypt demo_cipher 9 [104; 101; 108; 108; 111; 32; 119; 111; 114; 108; 100] [9; 8; 7; 6; 5; 4; 3; 2; 0; 0] ;;
   ocfb_decrypt demo_cipher 9 y) =
  Ok ([9; 8; 7; 6; 5; 4; 3; 2] ++ [3; 2] ++ [104; 101; 108; 108; 111; 32; 119; 111; 114; 108; 100]).
Proof. reflexivity. Qed.
Example C18_ex :
  (y <- ocfb_encrypt demo_cipher 18 [104; 101] [9; 8; 7; 6; 5; 4; 3; 2; 0; 0] ;;
   ocfb_decrypt demo_cipher 18 (firstn 9 y ++ [0] ++ skipn 10 y)) = Throw ERuntime.
Proof. reflexivity. Qed.

Print Assumptions C16_roundtrip.
Print Assumptions C16_standard_mode.
Print Assumptions C16_short_prefix.
Print Assumptions C16_other_packet.
Print Assumptions C17_roundtrip.
Print Assumptions C17_standard_mode.
Print Assumptions C17_decrypt_length.
Print Assumptions C18_quick_check.
