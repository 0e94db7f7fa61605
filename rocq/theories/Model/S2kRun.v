(** Key derivation from a passphrase: the run functions of src/Misc/s2k.cpp. *)
From Verif Require Export Model.S2k Model.Hashes Model.Tables.

(** S2K3::coded_count, s2k.cpp 188-190; EXPBIAS is 6 (include/Misc/s2k.h). *)
Definition coded_count (c : N) : N := u32 (N.shiftl (16 + N.land c 15) (N.shiftr c 4 + 6)).

(** The loop of S2K0::run 90-97 and S2K1::run 147-154 ([data] is the passphrase, or salt and
    passphrase).  No digest is empty, so [klen] + 1 rounds are enough (proved). *)
Fixpoint s2k_loop (n : nat) (alg : N) (data : bytes) (counter : nat) (klen : N) (out : bytes) : result bytes :=
  match n with
  | O => Diverge
  | S n' =>
    if len out <? klen then
      d <- hash_use alg (repeat 0 counter ++ data) ;;
      s2k_loop n' alg data (S counter) klen (out ++ d)
    else substr out 0 klen
  end.

(** The do-while loop of S2K3::run, s2k.cpp 232-236: hash object and number of octets.  The
    count grows by the length of [combined]; with an empty [combined] the loop never ends. *)
Fixpoint s2k_feed (n : nat) (A : md) (combined : bytes) (coded : N) (h : md_state A) (hashed : N)
  : result (md_state A * N) :=
  match n with
  | O => Diverge
  | S n' =>
    let h := md_update A h combined in
    let hashed := hashed + len combined in
    if hashed + len combined <? coded then s2k_feed n' A combined coded h hashed else Ok (h, hashed)
  end.

(** One context of S2K3::run, s2k.cpp 229-241. *)
Definition s2k_context (alg : N) (combined : bytes) (coded : N) (context : nat) : result bytes :=
  A <- hash_alg alg ;;
  ' (h, hashed) <- s2k_feed (S (N.to_nat coded)) A combined coded (md_update A (md_new A) (repeat 0 context)) 0 ;;
  h <- (if hashed <? coded then
          rest <- substr combined 0 (coded - hashed) ;; Ok (md_update A h rest)
        else Ok h) ;;
  Ok (md_digest A h).

(** The for loop of S2K3::run, s2k.cpp 228-242. *)
Definition s2k_contexts (alg : N) (combined : bytes) (coded : N) :=
  fix go (l : list nat) (out : bytes) : result bytes :=
    match l with
    | [] => Ok out
    | c :: l' => d <- s2k_context alg combined coded c ;; go l' (out ++ d)
    end.

(** S2K0::run, S2K1::run, S2K3::run 220-245. *)
Definition s2k_run (s : s2k) (pass : bytes) (klen : N) : result bytes :=
  match s2k_kind s with
  | S2K0 => s2k_loop (S (N.to_nat klen)) (s2k_hash s) pass 0 klen []
  | S2K1 => s2k_loop (S (N.to_nat klen)) (s2k_hash s) (s2k_salt s ++ pass) 0 klen []
  | S2K3 =>
    bits <- map_at hash_length (s2k_hash s) ;;
    let digest_octets := N.shiftr bits 3 in
    let contexts := klen / digest_octets + (if klen mod digest_octets =? 0 then 0 else 1) in
    out <- s2k_contexts (s2k_hash s) (s2k_salt s ++ pass) (coded_count (s2k_count s))
             (seq 0 (N.to_nat contexts)) [] ;;
    substr out 0 klen
  end.
