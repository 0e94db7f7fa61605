(** Printing packets: PGP::show (src/PGP.cpp 489-499, 618-620), Message::show (src/Message.cpp
    211-226), CleartextSignature::show (src/CleartextSignature.cpp 136-142), Tag::show
    (src/Packets/Packet.cpp 54-61, 107-117), the show_contents functions of src/Packets/Tag*.cpp,
    Key.cpp, Tag2/Sub*.cpp, Tag17/Sub1.cpp, src/Misc/s2k.cpp, and the commands show and
    show-cleartext-signature.  Built without GPG_COMPATIBLE. *)
From Verif Require Export Model.Commands Model.HumanReadable Model.S2kRun.

(** What printing does: lines and moves of a HumanReadable, and the files images are written to.
    When printing throws, nothing is kept of it (the files written before are lost here). *)
Inductive event := Say (s : bytes) | Deeper | Back | Save (name data : bytes).
(** What printing sees: gmtime, zlib and bzip2 and the depth of messages in messages, and the
    members Sub::size and Sub1::current, which the packets of the model do not have (they are only
    used here; size is what was read, current counts the images made so far), whether a file can be
    opened for writing. *)
Record viewer := mkViewer { v_gmtime : Z -> option tm; v_unzip : N -> bytes -> option bytes; v_fuel : nat;
  v_size : bool * sub tag2 -> N; v_image_size : image -> N; v_number : image -> N; v_open : bytes -> bool }.

(** get_mapped, includes.h 107-113. *)
Fixpoint mapped (t : list (N * bytes)) (k : N) : bytes :=
  match t with [] => str "Unknown" | (x, s) :: r => if x =? k then s else mapped r k end.
Definition private_names (s : bytes) : list (N * bytes) := map (fun k => (k, s)) private_ids.
(** PKA::NAME, PKAs.h 68-95; Hash::NAME, Hashes.h 75-98; Sym::NAME, Encryptions.h 85-111;
    Compression::NAME, Compress.h 58-74. *)
Definition pka_name : list (N * bytes) :=
  [(1, str "RSA (Encrypt or Sign)"); (2, str "RSA Encrypt-Only"); (3, str "RSA Sign-Only"); (16, str "ELGAMAL (Encrypt-Only)"); (17, str "DSA");
   (18, str "Reserved for Elliptic Curve"); (19, str "Reserved for ECDSA"); (20, str "Reserved (formerly ELGAMAL Encrypt or Sign)");
   (21, str "Reserved for Diffie-Hellman (X9.42), as defined for IETF-S / MIME)")] ++ private_names (str "Private/Experimental algorithm").
Definition hash_name : list (N * bytes) :=
  [(1, str "MD5"); (2, str "SHA1"); (3, str "RIPEMD160"); (4, str "Reserved"); (5, str "Reserved"); (6, str "Reserved"); (7, str "Reserved");
   (8, str "SHA256"); (9, str "SHA384"); (10, str "SHA512"); (11, str "SHA224")] ++ private_names (str "Private/Experimental algorithm").
Definition sym_name : list (N * bytes) :=
  [(0, str "PLAINTEXT"); (1, str "IDEA"); (2, str "TRIPLEDES"); (3, str "CAST5"); (4, str "BLOWFISH"); (5, str "Reserved"); (6, str "Reserved");
   (7, str "AES128"); (8, str "AES192"); (9, str "AES256"); (10, str "TWOFISH256"); (11, str "CAMELLIA128"); (12, str "CAMELLIA192");
   (13, str "CAMELLIA256")] ++ private_names (str "Private/Experimental algorithm").
Definition comp_name : list (N * bytes) :=
  [(0, str "UNCOMPRESSED"); (1, str "ZIP {RFC1951}"); (2, str "ZLIB {RFC1950}"); (3, str "BZip2 {BZ2}")] ++ private_names (str "Private/Experimental algorithm").
(** Signature_Type::NAME, sigtypes.h 161-177. *)
Definition sigtype_name : list (N * bytes) :=
  [(0, str "Signature of a binary document."); (1, str "Signature of a canonical text document"); (2, str "Standalone signature");
   (16, str "Generic certification of a User ID and Public-Key packet"); (17, str "Persona certification of a User ID and Public-Key packet");
   (18, str "Casual certification of a User ID and Public-Key packet"); (19, str "Positive certification of a User ID and Public-Key packet");
   (24, str "Subkey Binding Signature"); (25, str "Primary Key Binding Signature"); (31, str "Signature directly on a key");
   (32, str "Key revocation signature"); (40, str "Subkey revocation signature"); (48, str "Certification revocation signature");
   (64, str "Timestamp signature"); (80, str "Third-Party Confirmation signature")].
(** Packet::NAME, Packet.h 88-111. *)
Definition tag_name : list (N * bytes) :=
  [(0, str "Reserved - a packet tag MUST NOT have this value"); (1, str "Public-Key Encrypted Session Key"); (2, str "Signature");
   (3, str "Symmetric-Key Encrypted Session Key"); (4, str "One-Pass Signature"); (5, str "Secret-Key"); (6, str "Public-Key"); (7, str "Secret-Subkey");
   (8, str "Compressed Data"); (9, str "Symmetrically (Conventional) Encrypted Data"); (10, str "Marker Packet (Obsolete Literal Packet)");
   (11, str "Literal Data"); (12, str "(Keyring) Trust"); (13, str "User ID"); (14, str "Public-Subkey (Obsolete Comment Packet)");
   (17, str "User Attribute"); (18, str "Sym. Encrypted Integrity Protected Data"); (19, str "Modification Detection Code");
   (60, str "Private or Experimental Values"); (61, str "Private or Experimental Values"); (62, str "Private or Experimental Values");
   (63, str "Private or Experimental Values")].
(** Subpacket::Tag2::NAME, Tag2/Subpacket.h 129-179. *)
Definition sub_name : list (N * bytes) :=
  [(0, str "Reserved"); (1, str "Reserved"); (2, str "Signature Creation Time"); (3, str "Signature Expiration Time"); (4, str "Exportable Certification");
   (5, str "Trust Signature"); (6, str "Regular Expression"); (7, str "Revocable"); (8, str "Reserved"); (9, str "Key Expiration Time");
   (10, str "Placeholder for Backward Compatibility"); (11, str "Preferred Symmetric Algorithms"); (12, str "Revocation Key"); (13, str "Reserved");
   (14, str "Reserved"); (15, str "Reserved"); (16, str "Issuer"); (17, str "Reserved"); (18, str "Reserved"); (19, str "Reserved"); (20, str "Notation Data");
   (21, str "Preferred Hash Algorithms"); (22, str "Preferred Compression Algorithms"); (23, str "Key Server Preferences"); (24, str "Preferred Key Server");
   (25, str "Primary User ID"); (26, str "Policy URI"); (27, str "Key Flags"); (28, str "Signer's User ID"); (29, str "Reason for Revocation");
   (30, str "Features"); (31, str "Signature Target"); (32, str "Embedded Signature")] ++ private_names (str "Private/Experimental algorithm").
(** Notation::NAME, Sub20.h 83-86; Key_Server_Preferences::NAME, Sub23.h 53-56; Key_Flags::NAME,
    Sub27.h 92-100; Revoke::NAME, Sub29.h 41-58; Features_Flags::NAME, Sub30.h 66-68;
    Image_Attributes::NAME, Tag17/Sub1.h 69-82; Literal::NAME, Tag11.h 84-88; S2K::NAME, s2k.h 71-87. *)
Definition notation_name : list (N * bytes) := [(0, str "none"); (128, str "Human-Readable")].
Definition ksp_name : list (N * bytes) := [(0, []); (128, str "NO-MODIFY")].
Definition key_flag_name : list (N * bytes) :=
  [(1, str "This key may be used to certify other keys"); (2, str "This key may be used to sign data"); (4, str "This key may be used to encrypt communications");
   (8, str "This key may be used to encrypt storage"); (16, str "The private component of this key may have been split by a secret-sharing mechanism");
   (32, str "This key may be used for authentication"); (128, str "The private component of this key may be in the possession of more than one person")].
Definition revoke_name : list (N * bytes) :=
  [(0, str "No reason specified"); (1, str "Key is superceded"); (2, str "Key material has been compromised"); (3, str "Key is no longer used");
   (32, str "User ID information is no longer valid")] ++ private_names (str "Private Use").
Definition feature_name : list (N * bytes) := [(1, str "Modification Detection (packets 18 and 19)")].
Definition image_name : list (N * bytes) := (1, str "JPEG") :: private_names (str "Reserved for private/experimental use").
Definition literal_name : list (N * bytes) := [(98, str "Binary"); (116, str "Text"); (117, str "UTF-8 Text")].
Definition s2k_name : list (N * bytes) :=
  [(0, str "Simple S2K"); (1, str "Salted S2K"); (2, str "Reserved value"); (3, str "Iterated and Salted S2K")] ++ private_names (str "Private/Experimental S2K").

(** mpitohex, mpi.cpp 25-31. *)
Definition mpitohex (a : N) : bytes := hexlify (mpitoraw a).
(** Recurring pieces: "<name> (<kind> <number>)" and "(<bits> bits): <hex>". *)
Definition named (t : list (N * bytes)) (kind : string) (k : N) : bytes := mapped t k ++ str " (" ++ str kind ++ str " " ++ decimal k ++ str ")".
Definition with_bits (name : string) (a : N) : bytes := str name ++ str " (" ++ decimal (bitsize a) ++ str " bits): " ++ mpitohex a.
(** Several members of mpi in a row, each under its name: mpi[i] is undefined beyond the end. *)
Fixpoint numbers (names : list string) (i : nat) (mpi : list N) : result (list event) :=
  match names with
  | [] => Ok []
  | n :: r => a <- vec_at mpi i ;; t <- numbers r (S i) mpi ;; Ok (Say (with_bits n a) :: t)
  end.
(** A title, and what is below it. *)
Definition below (title : bytes) (l : list event) : list event := Say title :: Deeper :: l ++ [Back].
Definition truth (b : bool) : bytes := if b then str "True" else str "False".

Section View.
  Variable v : viewer.
  Definition date (t : N) : result bytes := show_time (v_gmtime v) (Z.of_N t).

  (** S2K::show 30-34 and show_title 8-10, S2K0::show_contents 62-64, S2K1 115-118, S2K3 192-195. *)
  Definition s2k_show (s : s2k) : result (list event) :=
    n <- map_at s2k_name (s2k_type s) ;;
    let hash := [Say (str "Hash: " ++ named hash_name "hash" (s2k_hash s))] in
    let salt := [Say (str "Salt: " ++ hexlify (s2k_salt s))] in
    let count := [Say (str "Coded Count: " ++ decimal (coded_count (s2k_count s)) ++ str " (count " ++ decimal (s2k_count s) ++ str ")")] in
    Ok (below (n ++ str " (s2k " ++ decimal (s2k_type s) ++ str "):")
          (match s2k_kind s with S2K0 => hash | S2K1 => hash ++ salt | S2K3 => hash ++ salt ++ count end)).

  (** One line per octet of a list of algorithms: Sub11.cpp 11-15, Sub21, Sub22, Sub20.cpp 21-23.
      std::to_string gets a (signed) char. *)
  Definition octet_lines (label : string) (t : list (N * bytes)) (kind : string) (l : bytes) : list event :=
    map (fun c => Say (str label ++ mapped t c ++ str " (" ++ str kind ++ str " " ++ decimal_z (signed_char c) ++ str ")")) l.
  (** One line per bit set: Sub23.cpp 11-20, Sub27, Sub30. *)
  Definition bit_lines (t : list (N * bytes)) (text : N -> bytes) (l : bytes) : list event :=
    flat_map (fun o => flat_map (fun b => if N.testbit o b then [Say (str "Flag - " ++ mapped t (2 ^ b) ++ text (2 ^ b))] else [])
                                [0; 1; 2; 3; 4; 5; 6; 7]) l.
  Definition hex_of_mask (m : N) : bytes := str " (key 0x" ++ makehex m 2 ++ str ")".

  (** The show_contents functions of Tag2/Sub*.cpp; [emb] prints an embedded signature. *)
  Definition sub_lines (emb : tag2 -> result (list event)) (s : sub tag2) : result (list event) :=
    match s with
    | Sub2 t => d <- date t ;; Ok [Say (str "Creation Time: " ++ d)]                                  (* Sub2.cpp 13-15 *)
    | Sub3 dt => d <- (if dt =? 0 then Ok (str "Never") else date dt) ;;                             (* Sub3.cpp 13-15 *)
                 Ok [Say (str "Signature Expiration Time (Days): " ++ d)]
    | Sub4 b => Ok [Say (str "Exportable: " ++ truth b)]                                             (* Sub4.cpp 13-15 *)
    | Sub5 l a => Ok [Say (str "Trust Level: " ++ decimal l); Say (str "Trust Amount: " ++ decimal a)]  (* Sub5.cpp 14-17 *)
    | Sub6 r => Ok [Say (str "Regular Expression: " ++ r)]                                           (* Sub6.cpp 13-15 *)
    | Sub7 b => Ok [Say (str "Revocable: " ++ truth b)]                                              (* Sub7.cpp 13-15 *)
    | Sub9 dt => d <- (if dt =? 0 then Ok (str "Never") else x <- show_dt (Z.of_N dt) ;; Ok (x ++ str " after key creation")) ;;
                 Ok [Say (str "Key Expiration Time: " ++ d)]                                         (* Sub9.cpp 13-15 *)
    | Sub10 d => Ok [Say d]                                                                          (* Sub10.cpp 11-13 *)
    | Sub11 l => Ok (octet_lines "sym alg - " sym_name "sym" l)                                      (* Sub11.cpp 11-15 *)
    | Sub12 c p f => Ok [Say (str "Class: " ++ decimal c); Say (str "Public Key Algorithm: " ++ named pka_name "pka" p);
                         Say (str "Fingerprint: " ++ f)]                                             (* Sub12.cpp 15-19 *)
    | Sub16 k => Ok [Say (str "Key ID: " ++ hexlify k)]                                              (* Sub16.cpp 11-13 *)
    | Sub20 f m n => Ok (octet_lines "Flag - " notation_name "not" f ++ [Say (str "Name: " ++ m); Say (str "Value: " ++ n)])  (* Sub20.cpp 20-27 *)
    | Sub21 l => Ok (octet_lines "hash alg - " hash_name "hash" l)                                   (* Sub21.cpp 11-15 *)
    | Sub22 l => Ok (octet_lines "comp alg - " comp_name "comp" l)                                   (* Sub22.cpp 11-15 *)
    | Sub23 l => Ok (bit_lines ksp_name hex_of_mask l)                                               (* Sub23.cpp 11-20 *)
    | Sub24 d => Ok [Say (str "URI - " ++ d)]                                                        (* Sub24.cpp 11-13 *)
    | Sub25 b => Ok [Say (str "Primary: " ++ truth b)]                                               (* Sub25.cpp 13-15 *)
    | Sub26 d => Ok [Say (str "Policy - " ++ d)]                                                     (* Sub26.cpp 11-13 *)
    | Sub27 l => Ok (bit_lines key_flag_name hex_of_mask l)                                          (* Sub27.cpp 11-20 *)
    | Sub28 d => Ok [Say (str "ID: " ++ d)]                                                          (* Sub28.cpp 11-13 *)
    | Sub29 c r => Ok (Say (str "Reason " ++ decimal c ++ str " - " ++ mapped revoke_name c) ::
                       (if c =? 0 then [] else [Say (str "Comment - " ++ r)]))                       (* Sub29.cpp 14-19 *)
    | Sub30 l => Ok (bit_lines feature_name (fun m => str " (feat " ++ decimal m ++ str ")") l)      (* Sub30.cpp 11-20 *)
    | Sub31 p h d => Ok [Say (str "Public Key Algorithm: " ++ named pka_name "pka" p); Say (str "Hash Algorithm: " ++ named hash_name "hash" h);
                         Say (str "Hash: " ++ hexlify d)]                                            (* Sub31.cpp 15-19 *)
    | Sub32 e => match e with Some s => emb s | None => Ok [] end                                    (* Sub32.cpp 11-15 *)
    end.
  (** show_critical and show_type: Subpacket.cpp 22-28, Tag2/Subpacket.cpp 9-11. *)
  Definition sub_title (c : bool * sub tag2) : result bytes :=
    n <- map_at sub_name (sub_type (snd c)) ;;
    Ok ((if fst c then str "Critical: " else []) ++ n ++ str " Subpacket (sub " ++ decimal (sub_type (snd c)) ++ str ") (" ++ decimal (v_size v c) ++ str " octets)").
  (** One subpacket: Sub::show, Subpacket.cpp 67-71, or Sub9::show, Sub9.cpp 32-37, for a key
      expiration time; the sum is one of uint32_t. *)
  Definition sub_show (emb : tag2 -> result (list event)) (created : N) (c : bool * sub tag2) : result (list event) :=
    t <- sub_title c ;;
    l <- match snd c with
         | Sub9 dt => d <- (if dt =? 0 then Ok (str "Never") else date (u32 (created + dt))) ;; Ok [Say (str "Key Expiration Time: " ++ d)]
         | s => sub_lines emb s
         end ;;
    Ok (below t l).

  (** Tag::show_title, Packet.cpp 54-61, and Partial::show_title, Partial.cpp 8-13 (Tag8, 9, 11, 18). *)
  Definition tag_title (f : header_format) (part : partial_flag) (tag : N) : result bytes :=
    n <- map_at tag_name tag ;;
    Ok ((match f with NEW => str "New" | OLD => str "Old" end) ++ str ": " ++ n ++ str " (Tag " ++ decimal tag ++ str ")" ++
        (if can_have_partial_length tag then match part with PARTIAL => str " (partial)" | NOT_PARTIAL => [] end else [])).

  (** The loop over the subpackets, Tag2.cpp 205-218 and 226-239, remembers the creation time. *)
  Definition subs_show (emb : tag2 -> result (list event)) : N -> list (bool * sub tag2) -> result (list event) :=
    fix go (created : N) (l : list (bool * sub tag2)) {struct l} : result (list event) :=
      match l with
      | [] => Ok []
      | c :: r =>
        let created := match snd c with Sub2 t => t | _ => created end in
        x <- sub_show emb created c ;; y <- go created r ;; Ok (x ++ y)
      end.
  (** Tag2::show_contents, Tag2.cpp 186-263.  An embedded signature has the header format of a new
      packet (Packet.cpp 77-82). *)
  Fixpoint tag2_show (s : tag2) : result (list event) :=
    match s with
    | mkTag2 version type pka hash mpi left16 time keyid hashed unhashed =>
      let subs := subs_show (fun e => t <- tag_title NEW NOT_PARTIAL 2 ;; l <- tag2_show e ;; Ok (below t l)) in
      let type_line := Say (str "Signature Type: " ++ mapped sigtype_name type ++ str " (type 0x" ++ makehex type 2 ++ str ")") in
      let pka_line := Say (str "Public Key Algorithm: " ++ named pka_name "pka" pka) in
      let hash_line := Say (str "Hash Algorithm: " ++ named hash_name "hash" hash) in
      head <- (if version <? 4 then
                 d <- date time ;;
                 Ok (below (str "Hashed Material:") [type_line; Say (str "Creation Time: " ++ d); Say (str "Signer's Key ID: " ++ hexlify keyid); pka_line; hash_line])
               else if version =? 4 then
                 h <- (match hashed with [] => Ok [] | _ => x <- subs 0 hashed ;; Ok (below (str "Hashed Sub:") x) end) ;;
                 u <- (match unhashed with [] => Ok [] | _ => x <- subs 0 unhashed ;; Ok (below (str "Unhashed Sub:") x) end) ;;
                 Ok ([type_line; pka_line; hash_line] ++ h ++ u)
               else Ok []) ;;
      n <- (if is_RSA pka then numbers ["RSA m**d mod n"%string] 0 mpi
            else if pka =? 17 then numbers ["DSA r"; "DSA s"]%string 0 mpi else Ok []) ;;
      Ok (Say (str "Version: " ++ decimal version) :: head ++ Say (str "Hash Left 16 Bits: " ++ hexlify left16) :: n)
    end.

  (** Key::show_common, Key.cpp 111-156. *)
  Definition key_show (k : key) : result (list event) :=
    d <- date (k_time k) ;;
    let head := [Say (str "Version: " ++ decimal (k_version k) ++ str " - " ++ (if k_version k <? 4 then str "Old" else str "New"));
                 Say (str "Creation Time: " ++ d)] in
    let pka_line := Say (str "Public Key Algorithm: " ++ named pka_name "pka" (k_pka k)) in
    if k_version k <? 4 then
      n <- vec_at (k_mpi k) 0 ;; e <- vec_at (k_mpi k) 1 ;;
      Ok (head ++ Say (str "Expiration Time (Days): " ++ decimal (k_expire k)) :: (if k_expire k =? 0 then [Say (str " (Never)")] else []) ++
          [pka_line; Say (str "RSA n: " ++ mpitohex n ++ str "(" ++ decimal (bitsize n) ++ str " bits)"); Say (str "RSA e: " ++ mpitohex e)])
    else if k_version k =? 4 then
      m <- (if is_RSA (k_pka k) then numbers ["RSA n"; "RSA e"]%string 0 (k_mpi k)
            else if k_pka k =? 16 then numbers ["ELGAMAL p"; "ELGAMAL g"; "ELGAMAL y"]%string 0 (k_mpi k)
            else if k_pka k =? 17 then numbers ["DSA p"; "DSA q"; "DSA g"; "DSA y"]%string 0 (k_mpi k) else Ok []) ;;
      Ok (head ++ pka_line :: m)
    else Ok head.

  (** Numbers read one after another from the secret part, Tag5.cpp 108-124. *)
  Fixpoint secret_numbers (names : list string) (data : bytes) (pos : N) : result (list event * N) :=
    match names with
    | [] => Ok ([], pos)
    | n :: r =>
      ' (a, pos) <- read_MPI data pos ;;
      ' (t, pos) <- secret_numbers r data pos ;;
      Ok (Say (str n ++ str ": (" ++ decimal (bitsize a) ++ str ") bits: " ++ mpitohex a) :: t, pos)
    end.
  (** Tag5::show_private, Tag5.cpp 59-155: without GPG_COMPATIBLE.  Where s2k_con is 0 the checksum
      is always the one of two octets. *)
  Definition secret_show (pka : N) (s : secret) : result (list event) :=
    head <- (if 253 <? sk_con s then
               match sk_s2k s with
               | None => UB
               | Some x =>
                 l <- s2k_show x ;;
                 Ok ([Say (str "String-to-Key Usage Conventions: " ++ decimal (sk_con s)); Say (str "Symmetric Key Algorithm: " ++ named sym_name "sym" (sk_sym s))] ++ l ++
                     (if s2k_type x =? 0 then [] else [Say (str "IV: " ++ hexlify (sk_iv s))]))
               end
             else Ok []) ;;
    if negb (sk_con s =? 0) then
      Ok (head ++ below (str "Encrypted Data (" ++ decimal (len (sk_secret s)) ++ str " octets):")
            [Say ((if is_RSA pka then str "RSA d, p, q, u" else if pka =? 16 then str "ELGAMAL x" else if pka =? 17 then str "DSA x" else str "Unknown") ++ str " + " ++
                  (if sk_con s =? 254 then str "SHA1 hash" else str "2 Octet Checksum") ++ str ": " ++ hexlify (sk_secret s))])
    else
      ' (l, pos) <- (if is_RSA pka then secret_numbers ["RSA d"; "RSA p"; "RSA q"; "RSA u"]%string (sk_secret s) 0
                     else if pka =? 16 then secret_numbers ["ELGAMAL x"%string] (sk_secret s) 0
                     else if pka =? 17 then secret_numbers ["DSA x"%string] (sk_secret s) 0 else Ok ([Say (str "Unknown")], 0)) ;;
      c <- substr (sk_secret s) pos 2 ;;
      Ok (head ++ l ++ [Say (str "2 Octet Checksum : " ++ hexlify c)]).

  (** Tag17 Sub1::show_contents, Tag17/Sub1.cpp 19-33, in Sub::show: the image is written to a file in
      the working directory. *)
  Definition image_show (i : image) : list event :=
    let name := str "image" ++ decimal (v_number v i) ++ str "." ++ mapped image_name (im_encoding i) in
    below (str "Image Attribute Subpacket (sub 1) (" ++ decimal (v_image_size v i) ++ str " octets)")
      (if v_open v name then [Save name (im_image i); Say (str "Check working directory for '" ++ name ++ str "'.")]
       else [Say (str "Error writing to '" ++ name ++ str "'.")]).

  (** The show_contents functions of the packets: Tag1.cpp 16-27, Tag3.cpp 37-49, Tag4.cpp 16-23,
      Tag5.cpp 157-160, Key.cpp 25-27, Tag8.cpp 29-41, Tag9.cpp 15-17, Tag10.cpp 13-15, Tag11.cpp 28-36,
      Tag12.cpp 11-13, Tag13.cpp 11-13, Tag17.cpp 29-33, Tag18.cpp 16-19, Tag19.cpp 11-13,
      Tag60-63.cpp 11-13.  [inner] prints the message inside a compressed packet. *)
  Definition contents_show (inner : bytes -> result (list event)) (tag : N) (c : contents) : result (list event) :=
    match c with
    | PSession version keyid pka mpi =>
      m <- (if pka <=? 3 then numbers ["RSA m**e mod n"%string] 0 mpi
            else if pka =? 16 then numbers ["ELGAMAL g**k mod p"; "ELGAMAL m * y**k mod p"]%string 0 mpi else Ok []) ;;
      Ok ([Say (str "Version: " ++ decimal version); Say (str "KeyID: " ++ hexlify keyid); Say (str "Public Key Algorithm: " ++ named pka_name "pka" pka)] ++ m)
    | PSig s => tag2_show s
    | PSymSession version sym s2k esk =>
      l <- match s2k with Some x => s2k_show x | None => Ok [Say []] end ;;
      Ok ([Say (str "Version: " ++ decimal version); Say (str "Symmetric Key Algorithm: " ++ named sym_name "sym" sym)] ++ l ++
          match esk with Some e => [Say (str "Encrypted Session Key: " ++ hexlify e)] | None => [] end)
    | POnePass version type hash pka keyid last =>
      Ok [Say (str "Version: " ++ decimal version); Say (str "Signature Type: " ++ named sigtype_name "sig" type);
          Say (str "Hash Algorithm: " ++ named hash_name "hash" hash); Say (str "Public Key Algorithm: " ++ named pka_name "pka" pka);
          Say (str "KeyID: " ++ hexlify keyid); Say (str "Last: " ++ decimal last)]
    | PSecret k s => a <- key_show k ;; b <- secret_show (k_pka k) s ;; Ok (a ++ b)
    | PKey k => key_show k
    | PCompressed comp d =>
      l <- (match d with [] => Ok [] | _ => x <- codec (v_unzip v) comp d ;; inner x end) ;;
      Ok (Say (str "Compression Algorithm: " ++ named comp_name "compress" comp) :: below (str "Compressed Data:") l)
    | PLiteral format name time lit =>
      d <- date time ;;
      Ok (Say (str "Data_Format: " ++ mapped literal_name format) ::
          below (str "Data (" ++ decimal (1 + len name + 4 + len lit) ++ str " octets):")
            [Say (str "Filename: " ++ name); Say (str "Creation Date: " ++ d); Say (str "Data: " ++ lit)])
    | PAttributes l => Ok (flat_map image_show l)
    | PProtected version d =>
      Ok [Say (str "Version: " ++ decimal version); Say (str "Encrypted Data (" ++ decimal (len d) ++ str " octets): " ++ hexlify d)]
    | PRaw d =>
      Ok [Say (match tag with
               | 9 => str "Encrypted Data (" ++ decimal (len d) ++ str " octets): " ++ hexlify d
               | 10 => d
               | 12 => str "Data (" ++ decimal (len d) ++ str " octets): " ++ d
               | 13 => str "User ID: " ++ d
               | 19 => str "SHA - 1 Hash of previous packet: " ++ d
               | _ => hexlify d
               end)]
    end.
  (** Tag::show, Packet.cpp 107-111. *)
  Definition packet_show (inner : bytes -> result (list event)) (p : packet) : result (list event) :=
    t <- tag_title (p_format p) (p_partial p) (p_tag p) ;;
    l <- contents_show inner (p_tag p) (p_body p) ;; Ok (below t l).
  (** PGP::show, PGP.cpp 495-499. *)
  Fixpoint packets_show (inner : bytes -> result (list event)) (ps : list packet) : result (list event) :=
    match ps with
    | [] => Ok []
    | p :: r => x <- packet_show inner p ;; y <- packets_show inner r ;; Ok (x ++ y)
    end.
  (** Message::show, Message.cpp 215-226, of the message read from decompressed data (Tag8.cpp 35-37). *)
  Fixpoint inner_show (fuel : nat) (data : bytes) : result (list event) :=
    match fuel with
    | O => Diverge
    | S f =>
      ' (ps, c) <- message_read_raw (v_unzip v) (v_fuel v) data ;;
      l <- packets_show (inner_show f) ps ;;
      match c with
      | None => Ok l
      | Some (form, part, _) => t <- tag_title form part 8 ;; Ok (below t l)
      end
    end.
  Definition show_events (ps : list packet) : result (list event) := packets_show (inner_show (v_fuel v)) ps.
  (** PGP::show(indents, indent_size), PGP.cpp 489-493, and the files it leaves. *)
  Definition moves (l : list event) : list hr_op :=
    flat_map (fun e => match e with Say s => [OpPrint s] | Deeper => [OpDown] | Back => [OpUp] | Save _ _ => [] end) l.
  Definition saved (l : list event) : list (bytes * bytes) := flat_map (fun e => match e with Save n d => [(n, d)] | _ => [] end) l.
  Definition show (indents indent_size : nat) (ps : list packet) : result bytes :=
    l <- show_events ps ;; Ok (hr_data (hr_run (hr_new_size indent_size indents 32) (moves l))).
  Definition show_files (ps : list packet) : result (list (bytes * bytes)) := l <- show_events ps ;; Ok (saved l).
  (** CleartextSignature::show, CleartextSignature.cpp 136-142. *)
  Definition cleartext_show (indents indent_size : nat) (c : cleartext) : result bytes :=
    s <- show (S indents) indent_size (g_packets (cs_sig c)) ;;
    Ok (repeat 32 (indents * indent_size) ++ str "Message:" ++ [10] ++ dash_escape (cs_message c) ++ str "Signature:" ++ [10] ++ s).
End View.

(** show.h 54-65: the text is flushed without a new line. *)
Definition run_show (w : machine) (v : viewer) (p : parsed) : answer :=
  with_file w p "file" (fun data => g <- pgp_read pgp_new data ;; t <- show v 0 4 (g_packets g) ;; Ok (0%Z, t)).
(** show_cleartext_signature.h 53-65: the message for a file that cannot be opened asks for an
    argument "filename", which is not there. *)
Definition run_show_cleartext (w : machine) (v : viewer) (p : parsed) : answer :=
  n <- arg p "file" ;;
  match w_files w n with
  | None => _ <- arg p "filename" ;; fail
  | Some data => c <- cleartext_load data ;; t <- cleartext_show v 0 4 c ;; print 0 t
  end.
(** The program with these commands. *)
Definition with_show (w : machine) (v : viewer) : machine :=
  mkMachine (w_files w) (w_now w) (w_now' w) (w_rnd w) (w_draws w) (w_zip w) (w_unzip w) (w_fuel w) (w_scan w) (w_hex w) (w_gmtime w) (w_help w)
    (fun name p => if beq name (str "show") then run_show w v p
                   else if beq name (str "show-cleartext-signature") then run_show_cleartext w v p else w_other w name p).
