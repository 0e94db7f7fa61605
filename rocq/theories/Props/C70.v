(** C70: the block ciphers are those of the standards (IDEA, triple DES, CAST-128, Blowfish,
    AES, Twofish, Camellia). *)
From Verif Require Import Proofs.CipherStdP Proofs.Lib.
From Verif Require Proofs.DesStdP Spec.Des Spec.Idea.
Local Open Scope N_scope.

(** C70: the object made for an algorithm number and a key enciphers every block to the value
    of the standard's cipher. *)
Theorem C70_standard : forall alg f key b, standard_cipher alg = Some f ->
  octets key -> length key = key_octets alg -> octets b -> length b = block_octets alg ->
  exists c, sym_setup alg key = Ok c /\ c_encrypt c b = Ok (f key b).
Proof. intros alg f key b S O L Ob Lb. destruct (setup_std alg f key S O L) as (c & A & _ & H). exists c. split; [exact A|]. now apply H. Qed.
(** And, triple DES apart (C50_tdes_decrypt_refuted), deciphers it back: a new object. *)
Theorem C70_deciphers : forall alg f key b, standard_cipher alg = Some f -> alg <> 2 ->
  octets key -> length key = key_octets alg -> octets b -> length b = block_octets alg ->
  exists c, sym_setup alg key = Ok c /\ c_decrypt c (f key b) = Ok b.
Proof. intros alg f key b S N2 O L Ob Lb. destruct (setup_std alg f key S O L) as (c & A & _ & H). exists c. split; [exact A|]. now apply H. Qed.
(** The numbers with a cipher are those of the standard. *)
Theorem C70_identifiers : forall alg key, standard_cipher alg = None -> sym_setup alg key = Throw ERuntime.
Proof.
  intros alg key H. unfold standard_cipher in H. unfold sym_setup.
  destruct alg as [|p]; [reflexivity|]. do 4 (destruct p as [p|p|]; try reflexivity; try discriminate H).
Qed.
(** DES by itself, both ways. *)
Theorem C70_des : forall key b, octets key -> length key = 8%nat -> octets b -> length b = 8%nat ->
  exists c, DES key = Ok c /\ c_encrypt c b = Ok (Des.des_encipher key b) /\ c_decrypt c b = Ok (Des.des_decipher key b).
Proof.
  intros key b O L Ob Lb. assert (C : exists c, DES key = Ok c).
  { unfold DES. unfold len. rewrite L. cbn [N.of_nat N.eqb Pos.eqb negb Pos.of_succ_nat Pos.succ]. eauto. }
  destruct C as [c C]. exists c. split; [exact C|]. exact (DesStdP.des_encrypt_std key c b O C Ob Lb).
Qed.
(** Encryption in cipher feedback mode is the standard mode over the standard cipher: for
    secret keys and session keys ... *)
Theorem C70_cfb : forall alg f key data iv, standard_cipher alg = Some f ->
  octets key -> length key = key_octets alg -> octets data -> octets iv -> length iv = block_octets alg ->
  use_ncfb_encrypt alg data key iv = Ok (cfb_mode (f key) (block_octets alg) iv data).
Proof. exact ncfb_std. Qed.
(** ... and for the encrypted data packets. *)
Theorem C70_openpgp_cfb : forall alg f key tag data pre extra, standard_cipher alg = Some f ->
  octets key -> length key = key_octets alg -> tag = 9 \/ tag = 18 ->
  octets data -> octets pre -> length pre = block_octets alg -> (2 <= length extra)%nat ->
  use_ocfb_encrypt alg tag data key (pre ++ extra) = Ok (openpgp_cfb (f key) (block_octets alg) (tag =? 9) pre data).
Proof. exact ocfb_std. Qed.

(** Published vectors meet the hypotheses, and the specifications give the published values. *)
Example C70_ex : let key := [0; 1; 0; 2; 0; 3; 0; 4; 0; 5; 0; 6; 0; 7; 0; 8] in let b := [0; 0; 0; 1; 0; 2; 0; 3] in
  standard_cipher 1 = Some Idea.idea_cipher /\ octets key /\ length key = key_octets 1 /\ octets b /\ length b = block_octets 1 /\
  Idea.idea_cipher key b = [0x11; 0xFB; 0xED; 0x2B; 0x01; 0x98; 0x6D; 0xE5].
Proof. cbv zeta. split; [reflexivity|]. split; [apply octetsb_spec; reflexivity|]. split; [reflexivity|]. split; [apply octetsb_spec; reflexivity|]. split; [reflexivity|]. vm_compute. reflexivity. Qed.
Example C70_aes_ex : let key := map N.of_nat (seq 0 16) in let b := map (fun i => 17 * N.of_nat i) (seq 0 16) in
  standard_cipher 7 = Some Aes.aes_cipher /\ octets key /\ length key = key_octets 7 /\ octets b /\ length b = block_octets 7 /\
  Ok (Aes.aes_cipher key b) = unhexlify (str "69c4e0d86a7b0430d8cdb78070b4c55a").
Proof. cbv zeta. split; [reflexivity|]. split; [apply octetsb_spec; reflexivity|]. split; [reflexivity|]. split; [apply octetsb_spec; reflexivity|]. split; [reflexivity|]. vm_compute. reflexivity. Qed.
Example C70_twofish_ex :
  Ok (Twofish.twofish_cipher (repeat 0 16) (repeat 0 16)) = unhexlify (str "9f589f5cf6122c32b6bfec2f2ae8c35a").
Proof. vm_compute. reflexivity. Qed.
Example C70_camellia_ex :
  Ok (Camellia.camellia_cipher [0x01;0x23;0x45;0x67;0x89;0xab;0xcd;0xef;0xfe;0xdc;0xba;0x98;0x76;0x54;0x32;0x10]
                               [0x01;0x23;0x45;0x67;0x89;0xab;0xcd;0xef;0xfe;0xdc;0xba;0x98;0x76;0x54;0x32;0x10]) =
  unhexlify (str "67673138549669730857065648eabe43").
Proof. vm_compute. reflexivity. Qed.
Example C70_cast_ex :
  Ok (Cast.cast128_cipher [0x01;0x23;0x45;0x67;0x12;0x34;0x56;0x78;0x23;0x45;0x67;0x89;0x34;0x56;0x78;0x9a] [0x01;0x23;0x45;0x67;0x89;0xab;0xcd;0xef]) =
  unhexlify (str "238b4fe5847e44b2").
Proof. vm_compute. reflexivity. Qed.
Example C70_des_ex : let key := [0x13;0x34;0x57;0x79;0x9b;0xbc;0xdf;0xf1] in let b := [0x01;0x23;0x45;0x67;0x89;0xab;0xcd;0xef] in
  octets key /\ length key = 8%nat /\ octets b /\ length b = 8%nat /\ Ok (Des.des_encipher key b) = unhexlify (str "85e813540f0ab405").
Proof. cbv zeta. split; [apply octetsb_spec; reflexivity|]. split; [reflexivity|]. split; [apply octetsb_spec; reflexivity|]. split; [reflexivity|]. vm_compute. reflexivity. Qed.
Example C70_identifiers_ex : standard_cipher 5 = None /\ standard_cipher 10 = Some Twofish.twofish_cipher.
Proof. split; reflexivity. Qed.
Example C70_cfb_ex :
  use_ncfb_encrypt 1 [1; 2; 3] (repeat 1 16) (repeat 7 8) = Ok (cfb_mode (Idea.idea_cipher (repeat 1 16)) 8 (repeat 7 8) [1; 2; 3]).
Proof. apply (C70_cfb 1 Idea.idea_cipher); try reflexivity; apply octetsb_spec; reflexivity. Qed.
Example C70_openpgp_cfb_ex :
  use_ocfb_encrypt 1 9 [1; 2; 3] (repeat 1 16) (repeat 7 8 ++ [7; 7]) = Ok (openpgp_cfb (Idea.idea_cipher (repeat 1 16)) 8 true (repeat 7 8) [1; 2; 3]).
Proof. apply (C70_openpgp_cfb 1 Idea.idea_cipher); try reflexivity; try (left; reflexivity); try (apply octetsb_spec; reflexivity). Qed.

Print Assumptions C70_standard.
Print Assumptions C70_deciphers.
Print Assumptions C70_identifiers.
Print Assumptions C70_des.
Print Assumptions C70_cfb.
Print Assumptions C70_openpgp_cfb.
