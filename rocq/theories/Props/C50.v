(** C50: block ciphers invert, and the cipher feedback modes over the real ciphers. *)
From Verif Require Import Proofs.CipherP.

(** C50: for every cipher but triple DES and every key of its size, an object is made; it
    enciphers every block, deciphers it back, and refuses anything but a whole block. *)
Theorem C50_ciphers_invert alg key :
  In alg offered -> alg <> 2 -> octets key -> length key = key_octets alg ->
  exists c, sym_setup alg key = Ok c /\ c_block c = N.of_nat (block_octets alg) /\
    inverts c (block_octets alg) /\ whole_blocks c (block_octets alg).
Proof.
  intros I N2 O L. destruct (setup_ok alg key I N2 O L) as [c [A [B [C [D _]]]]]. eauto.
Qed.
Example C50_ciphers_invert_ex :
  (c <- sym_setup 1 (repeat 1 16) ;; e <- c_encrypt c [1; 2; 3; 4; 5; 6; 7; 8] ;; c_decrypt c e) =
  Ok [1; 2; 3; 4; 5; 6; 7; 8].
Proof. vm_compute. reflexivity. Qed.

(** C50: any other algorithm number is refused. *)
Theorem C50_other_algorithm alg key : ~ In alg offered -> sym_setup alg key = Throw ERuntime.
Proof.
  intros H. cbn [offered In] in H. unfold sym_setup.
  destruct alg as [|p]; [reflexivity|].
  do 4 (destruct p as [p|p|]; try reflexivity; try (exfalso; apply H; tauto)).
Qed.
Theorem C50_des_inverts key : length key = 8%nat ->
  exists c, DES key = Ok c /\ c_block c = 8 /\ inverts c 8 /\ whole_blocks c 8.
Proof.
  intros L. destruct (des_ok key) as [c [A [B [C [D _]]]]]; [unfold len; now rewrite L|]. eauto.
Qed.

(** C50, triple DES: encryption can be undone, by the three keys in reverse order. *)
Theorem C50_tdes_encrypts k1 k2 k3 b : length k1 = 8%nat -> length k2 = 8%nat -> length k3 = 8%nat ->
  octets b -> length b = 8%nat ->
  exists c r e, sym_setup 2 (k1 ++ k2 ++ k3) = Ok c /\ sym_setup 2 (k3 ++ k2 ++ k1) = Ok r /\
    c_encrypt c b = Ok e /\ octets e /\ length e = 8%nat /\ c_decrypt r e = Ok b.
Proof.
  intros L1 L2 L3 O L.
  assert (S : forall a d f, length a = 8%nat -> length d = 8%nat -> length f = 8%nat ->
    sym_setup 2 (a ++ d ++ f) = Ok (mkCipher 8 (tdes_chain a d f false true false) (tdes_chain a d f true false true))).
  { intros a d f A D F. destruct (tdes_setup (a ++ d ++ f)) as [x [y [z [E [X [Y [Z ->]]]]]]].
    - rewrite !app_length. lia.
    - assert (a = x /\ d = y /\ f = z) as [-> [-> ->]].
      { apply app_inj_len in E; [|unfold len in X; lia]. destruct E as [-> E].
        apply app_inj_len in E; [|unfold len in Y; lia]. tauto. }
      unfold TDES. now rewrite X, Y, Z. }
  exists (mkCipher 8 (tdes_chain k1 k2 k3 false true false) (tdes_chain k1 k2 k3 true false true)).
  exists (mkCipher 8 (tdes_chain k3 k2 k1 false true false) (tdes_chain k3 k2 k1 true false true)).
  assert (N8 : forall k : bytes, length k = 8%nat -> len k = 8) by (intros k Q; unfold len; now rewrite Q).
  destruct (tdes_chain_ok k1 k2 k3 false true false b (N8 _ L1) (N8 _ L2) (N8 _ L3) O L) as [e [E [Oe [Le D]]]].
  exists e. rewrite !S by auto. auto 10.
Qed.
(** So an object whose first and third keys agree inverts. *)
Theorem C50_tdes_two_keys_partial k1 k2 : length k1 = 8%nat -> length k2 = 8%nat ->
  exists c, sym_setup 2 (k1 ++ k2 ++ k1) = Ok c /\ c_block c = 8 /\ inverts c 8 /\ whole_blocks c 8.
Proof.
  intros L1 L2.
  destruct (tdes_setup (k1 ++ k2 ++ k1)) as [x [y [z [E [X [Y [Z H]]]]]]]; [rewrite !app_length; lia|].
  assert (k1 = x /\ k2 = y /\ k1 = z) as [-> [-> <-]].
  { apply app_inj_len in E; [|unfold len in X; lia]. destruct E as [-> E].
    apply app_inj_len in E; [|unfold len in Y; lia]. tauto. }
  rewrite H. unfold TDES. rewrite X, Y. cbn [negb N.eqb Pos.eqb orb].
  eexists. split; [reflexivity|]. split; [reflexivity|]. split.
  - intros b O L. cbn [c_encrypt c_decrypt].
    destruct (tdes_chain_ok x y x false true false b X Y X O L) as [e [A [B [C D]]]]. eauto.
  - intros b L. cbn [c_encrypt c_decrypt]. unfold tdes_chain, tdes_run.
    replace (len b =? 8) with false; [auto|]. symmetry. apply N.eqb_neq. unfold len. lia.
Qed.
(** C50 fails for triple DES: decrypt uses the keys in the order of encrypt. *)
Theorem C50_tdes_decrypt_refuted :
  exists key c b e d, octets key /\ length key = 24%nat /\ octets b /\ length b = 8%nat /\
    sym_setup 2 key = Ok c /\ c_encrypt c b = Ok e /\ c_decrypt c e = Ok d /\ d <> b.
Proof.
  destruct (tdes_setup_ok (map N.of_nat (seq 0 24))) as [c [C _]].
  - apply octetsb_spec. reflexivity.
  - reflexivity.
  - assert (H : (match sym_setup 2 (map N.of_nat (seq 0 24)) with
       | Ok c => match c_encrypt c (repeat 0 8) with
                 | Ok e => match c_decrypt c e with Ok d => negb (beq d (repeat 0 8)) | _ => false end
                 | _ => false end
       | _ => false end) = true) by (vm_compute; reflexivity).
    rewrite C in H.
    destruct (c_encrypt c (repeat 0 8)) as [e| | |] eqn:E; try discriminate.
    destruct (c_decrypt c e) as [d| | |] eqn:D; try discriminate.
    exists (map N.of_nat (seq 0 24)), c, (repeat 0 8), e, d.
    split; [apply octetsb_spec; reflexivity|]. split; [reflexivity|]. split; [apply octetsb_spec; reflexivity|].
    repeat split; auto. intros ->. rewrite beq_refl in H. discriminate.
Qed.

(** C50, IDEA: decrypt leaves the inverted key in the object, so a second decrypt with the
    same object is wrong. *)
Theorem C50_idea_second_decrypt_refuted :
  exists key c b e d, octets key /\ length key = 16%nat /\ octets b /\ length b = 8%nat /\
    sym_setup 1 key = Ok c /\ c_encrypt c b = Ok e /\ c_decrypt c e = Ok b /\
    c_decrypt (IDEA_after_decrypt key) e = Ok d /\ d <> b.
Proof.
  exists (repeat 1 16). do 1 eexists. exists (repeat 0 8). do 2 eexists.
  split; [apply octetsb_spec; reflexivity|]. split; [reflexivity|].
  split; [apply octetsb_spec; reflexivity|]. split; [reflexivity|].
  split; [unfold sym_setup, IDEA; change (negb (len (repeat 1 16) =? 16)) with false; reflexivity|].
  split; [vm_compute; reflexivity|]. split; [vm_compute; reflexivity|].
  split; [vm_compute; reflexivity|]. discriminate.
Qed.

(** C16, C17 over the library's own ciphers: for every offered cipher (triple DES too, as
    cipher feedback only enciphers) and every key of its size. *)
Theorem C17_all_ciphers alg key data iv : In alg offered -> octets key -> length key = key_octets alg ->
  length iv = block_octets alg ->
  exists y, use_ncfb_encrypt alg data key iv = Ok y /\ len y = len data /\ use_ncfb_decrypt alg y key iv = Ok data.
Proof.
  intros I O L V. destruct (setup_enciphers alg key I O L) as [c [E [C [[A [B D]] R]]]].
  assert (P : (2 <= block_octets alg)%nat) by (unfold block_octets; destruct (alg <? 7); lia).
  assert (F : N.of_nat (block_octets alg) < two64) by (unfold block_octets; destruct (alg <? 7); reflexivity).
  unfold use_ncfb_encrypt, use_ncfb_decrypt.
  assert (Z : alg =? 0 = false) by (apply N.eqb_neq; intros ->; cbn in I; intuition discriminate).
  rewrite Z, C. cbn [bind]. exists (cfb_mode E (block_octets alg) iv data). split; [|split].
  - apply ncfb_encrypt_ok; auto.
  - unfold len. now rewrite cfb_length.
  - rewrite (ncfb_decrypt_ok E (block_octets alg)) by easy. now rewrite uncfb_cfb.
Qed.
Theorem C16_all_ciphers alg key tag data pre extra : In alg offered -> octets key -> length key = key_octets alg ->
  tag = 9 \/ tag = 18 -> length pre = block_octets alg -> (2 <= length extra)%nat -> len data + 18 < two64 ->
  exists y, use_ocfb_encrypt alg tag data key (pre ++ extra) = Ok y /\
            use_ocfb_decrypt alg tag y key = Ok (pre ++ last_two pre ++ data).
Proof.
  intros I O L T V X S. destruct (setup_enciphers alg key I O L) as [c [E [C [[A [B D]] R]]]].
  assert (P : (8 <= block_octets alg <= 16)%nat) by (unfold block_octets; destruct (alg <? 7); lia).
  unfold use_ocfb_encrypt, use_ocfb_decrypt.
  assert (Z : alg =? 0 = false) by (apply N.eqb_neq; intros ->; cbn in I; intuition discriminate).
  rewrite Z, C. cbn [bind]. apply (ocfb_roundtrip E (block_octets alg)); auto; unfold two64 in *; lia.
Qed.
Example C17_all_ciphers_ex :
  (y <- use_ncfb_encrypt 1 [1; 2; 3; 4; 5; 6; 7; 8; 9; 10] (repeat 1 16) (repeat 7 8) ;;
   use_ncfb_decrypt 1 y (repeat 1 16) (repeat 7 8)) = Ok [1; 2; 3; 4; 5; 6; 7; 8; 9; 10].
Proof. vm_compute. reflexivity. Qed.
Example C16_all_ciphers_ex :
  (y <- use_ocfb_encrypt 1 18 [1; 2; 3; 4; 5; 6; 7; 8; 9; 10] (repeat 1 16) (repeat 9 10) ;;
   use_ocfb_decrypt 1 18 y (repeat 1 16)) = Ok (repeat 9 10 ++ [1; 2; 3; 4; 5; 6; 7; 8; 9; 10]).
Proof. vm_compute. reflexivity. Qed.

Print Assumptions C50_ciphers_invert.
Print Assumptions C50_other_algorithm.
Print Assumptions C50_des_inverts.
Print Assumptions C50_tdes_encrypts.
Print Assumptions C50_tdes_two_keys_partial.
Print Assumptions C50_tdes_decrypt_refuted.
Print Assumptions C50_idea_second_decrypt_refuted.
Print Assumptions C17_all_ciphers.
Print Assumptions C16_all_ciphers.
