(** Cipher feedback modes: src/Misc/cfb.cpp. *)
From Verif Require Export Model.Includes Model.Tables.

(** A keyed cipher object (SymAlg, include/Encryptions/SymAlg.h 31-43): block size in octets
    (blocksize() >> 3) and the two block operations. *)
Record cipher := mkCipher {
  c_block : N; c_encrypt : bytes -> result bytes; c_decrypt : bytes -> result bytes }.

Section cfb.
  Variable crypt : cipher.
  Let BS := c_block crypt.
  Let E := c_encrypt crypt.

  (** The loop of OpenPGP_CFB_encrypt, cfb.cpp 89-101.  x grows by BS each time, so
      [length data + 1] iterations are enough when BS > 0 (proved); with BS = 0 the loop
      would not end. *)
  Fixpoint ocfb_loop (n : nat) (data C : bytes) (x : N) : result bytes :=
    match n with
    | O => Diverge
    | S n' =>
      if x <? len data then
        FR <- substr C (x + 2) BS ;;
        FRE <- E FR ;;
        d <- substr data x BS ;;
        ocfb_loop n' data (C ++ xor_strings FRE d) (x + BS)
      else Ok C
    end.

  (** OpenPGP_CFB_encrypt, cfb.cpp 9-104.  BS - 2 is size_t arithmetic. *)
  Definition ocfb_encrypt (packet : N) (data prefix : bytes) : result bytes :=
    if len prefix <? BS + 2 then Throw ERuntime
    else
      let prefix := Base.prefix prefix (BS + 2) in
      FRE <- E (repeat 0 (N.to_nat BS)) ;;
      let C := xor_strings FRE prefix in
      FRE <- E C ;;
      rep <- substr prefix (sub64 BS 2) 2 ;;
      if packet =? 9 then
        let C := C ++ xor_strings (Base.prefix FRE 2) rep in
        FR <- substr C 2 BS ;;
        FRE <- E FR ;;
        ocfb_loop (S (length data)) data (C ++ xor_strings FRE (Base.prefix data BS)) BS
      else if packet =? 18 then
        ocfb_loop (S (length data)) data
          (C ++ xor_strings FRE (rep ++ Base.prefix data (sub64 BS 2))) (sub64 BS 2)
      else Throw ERuntime.

  (** The loop of OpenPGP_CFB_decrypt, cfb.cpp 131-136; gives P, FRE and x. *)
  Fixpoint ocfb_unloop (n : nat) (data P FRE : bytes) (x : N) : result (bytes * bytes * N) :=
    match n with
    | O => Diverge
    | S n' =>
      if x + BS <? len data then
        s <- substr data x BS ;;
        F <- E s ;;
        ocfb_unloop n' data (P ++ xor_strings FRE s) F (x + BS)
      else Ok (P, FRE, x)
    end.

  (** OpenPGP_CFB_decrypt, cfb.cpp 106-141. *)
  Definition ocfb_decrypt (packet : N) (data : bytes) : result bytes :=
    FRE <- E (repeat 0 (N.to_nat BS)) ;;
    let FR := Base.prefix data BS in
    let prefix := xor_strings FRE FR in
    FRE <- E FR ;;
    rep <- substr prefix (sub64 BS 2) 2 ;;
    two <- substr data BS 2 ;;
    if negb (beq rep (xor_strings (Base.prefix FRE 2) two)) then Throw ERuntime
    else
      ' (P, FRE, x) <- ocfb_unloop (S (length data)) data [] FRE (if packet =? 9 then 2 else 0) ;;
      d <- substr data x BS ;;
      let P := P ++ xor_strings FRE d in
      P <- substr P BS (sub64 (len P) BS) ;;
      Ok (prefix ++ (if packet =? 9 then rep else []) ++ P).

  (** normal_CFB_encrypt, cfb.cpp 161-171. *)
  Fixpoint ncfb_loop (n : nat) (data out IV : bytes) (x : N) : result bytes :=
    match n with
    | O => Diverge
    | S n' =>
      if len out <? len data then
        e <- E IV ;;
        d <- substr data x BS ;;
        let IV := xor_strings e d in
        ncfb_loop n' data (out ++ IV) IV (x + BS)
      else Ok out
    end.
  Definition ncfb_encrypt (data IV : bytes) : result bytes :=
    ncfb_loop (S (length data)) data [] IV 0.

  (** normal_CFB_decrypt, cfb.cpp 173-183. *)
  Fixpoint ncfb_unloop (n : nat) (data out IV : bytes) (x : N) : result bytes :=
    match n with
    | O => Diverge
    | S n' =>
      if x <? len data then
        e <- E IV ;;
        d <- substr data x BS ;;
        ncfb_unloop n' data (out ++ xor_strings e d) d (x + BS)
      else Ok out
    end.
  Definition ncfb_decrypt (data IV : bytes) : result bytes :=
    ncfb_unloop (S (length data)) data [] IV 0.
End cfb.
