(** Objects behind pointers: what copying, cloning and assigning packets and PGP blocks does to
    the objects they point to.  The rest of the model treats these as values; here an object is
    a cell at an address and a std::shared_ptr is an address (or None).  Objects are never freed
    (a shared_ptr keeps what it points to alive).  A vector of pointers holds no null pointer. *)
From Verif Require Export Model.Key.

Definition addr := nat.
(** Packet contents with the pointers in them: Tag2 (include/Packets/Tag2.h 168-169), Tag3
    (Tag3.h 88-89), Tag5 and Tag7 (Tag5.h 140), Tag17 (Tag17.h).  HPlain are the classes without
    a pointer. *)
Inductive hcontents :=
| HSig (version type pka hash : N) (mpi : list N) (left16 : bytes) (time : N) (keyid : bytes) (hashed unhashed : list addr)
| HSymSession (version sym : N) (s2k esk : option addr)
| HSecret (k : key) (con sym : N) (s2k : option addr) (iv secret : bytes)
| HAttributes (attrs : list addr)
| HPlain (c : contents).
(** The objects: packets, signature subpackets (an embedded signature is a pointer, Sub32.h 46),
    string-to-key specifiers, std::string (Tag3's esk) and image attributes. *)
Inductive cell :=
| CPacket (tag : N) (format : header_format) (partial : partial_flag) (body : hcontents)
| CSub (critical : bool) (s : sub addr)
| CS2k (s : s2k)
| CString (s : bytes)
| CImage (i : image).
Definition heap := list cell.
(** Dereferencing; std::make_shared; assignment to an object. *)
Definition deref (h : heap) (a : addr) : result cell := match nth_error h a with Some c => Ok c | None => UB end.
Definition alloc (h : heap) (c : cell) : heap * addr := (h ++ [c], length h).
Fixpoint put (h : heap) (a : addr) (c : cell) : heap :=
  match h, a with
  | [], _ => []
  | _ :: r, O => c :: r
  | x :: r, S a => x :: put r a c
  end.

(** A loop that clones every element of a vector. *)
Fixpoint clone_all (f : heap -> addr -> result (heap * addr)) (h : heap) (l : list addr) : result (heap * list addr) :=
  match l with
  | [] => Ok (h, [])
  | a :: r => ' (h, a) <- f h a ;; ' (h, r) <- clone_all f h r ;; Ok (h, a :: r)
  end.
(** [p ? p -> clone() : nullptr]. *)
Definition clone_opt (f : heap -> addr -> result (heap * addr)) (h : heap) (p : option addr) : result (heap * option addr) :=
  match p with None => Ok (h, None) | Some a => ' (h, a) <- f h a ;; Ok (h, Some a) end.
(** S2K0::clone, S2K1::clone, S2K3::clone, s2k.cpp 111-113, 184-186, 270-272. *)
Definition clone_s2k (h : heap) (a : addr) : result (heap * addr) :=
  c <- deref h a ;; match c with CS2k s => Ok (alloc h (CS2k s)) | _ => UB end.
(** std::make_shared <std::string> (a string), Tag3.cpp 110, 163, 171. *)
Definition clone_string (h : heap) (a : addr) : result (heap * addr) :=
  c <- deref h a ;; match c with CString s => Ok (alloc h (CString s)) | _ => UB end.
(** Tag17::Sub1::clone, Tag17/Sub1.cpp 83-85. *)
Definition clone_image (h : heap) (a : addr) : result (heap * addr) :=
  c <- deref h a ;; match c with CImage i => Ok (alloc h (CImage i)) | _ => UB end.

Section Clone.
  (** Packet::Tag::clone one level down. *)
  Variable clone : heap -> addr -> result (heap * addr).
  (** Sub32::set_embedded, Sub32.cpp 53-58: the object itself if [copy] is given, else a clone. *)
  Definition set_embedded (h : heap) (e : option addr) (copy : bool) : result (heap * option addr) :=
    match e with
    | Some a => if copy then Ok (h, Some a) else ' (h, a) <- clone h a ;; Ok (h, Some a)
    | None => Ok (h, None)
    end.
  (** clone of every subpacket class, e.g. Sub2.cpp 44-46: the copy constructor, which only Sub32
      defines (Sub32.cpp 31-35). *)
  Definition clone_sub (h : heap) (a : addr) : result (heap * addr) :=
    c <- deref h a ;;
    match c with
    | CSub crit (Sub32 e) => ' (h, e) <- set_embedded h e false ;; Ok (alloc h (CSub crit (Sub32 e)))
    | CSub crit s => Ok (alloc h (CSub crit s))
    | _ => UB
    end.
  (** Copy constructors: Tag2.cpp 369-380, Tag3.cpp 78-83, Tag5.cpp 225-234 (also for Tag7),
      Tag17.cpp 59-66; the others copy their members. *)
  Definition copy_contents (h : heap) (b : hcontents) : result (heap * hcontents) :=
    match b with
    | HSig v t p ha m l ti k hs us =>
      ' (h, hs) <- clone_all clone_sub h hs ;; ' (h, us) <- clone_all clone_sub h us ;; Ok (h, HSig v t p ha m l ti k hs us)
    | HSymSession v s s2k esk => ' (h, s2k) <- clone_opt clone_s2k h s2k ;; ' (h, esk) <- clone_opt clone_string h esk ;; Ok (h, HSymSession v s s2k esk)
    | HSecret k c s s2k iv x => ' (h, s2k) <- clone_opt clone_s2k h s2k ;; Ok (h, HSecret k c s s2k iv x)
    | HAttributes l => ' (h, l) <- clone_all clone_image h l ;; Ok (h, HAttributes l)
    | HPlain c => Ok (h, HPlain c)
    end.
  (** clone: Tag2.cpp 658-663, Tag3.cpp 159-165, Tag5.cpp 451-455, Tag7.cpp 32-36: the pointers of
      the copy are set once more to clones of this object's; Tag17.cpp 98-100 and the other
      classes: the copy. *)
  Definition clone_contents (h : heap) (b : hcontents) (out : addr) (rebuild : hcontents -> cell) : result heap :=
    match b with
    | HSig _ _ _ _ _ _ _ _ _ _ | HSymSession _ _ _ _ | HSecret _ _ _ _ _ _ => ' (h, b) <- copy_contents h b ;; Ok (put h out (rebuild b))
    | HAttributes _ | HPlain _ => Ok h
    end.
End Clone.
(** Packet::Tag::clone.  [n] bounds the depth of embedded signatures: an object that contains
    itself is cloned without end. *)
Fixpoint clone (n : nat) (h : heap) (a : addr) : result (heap * addr) :=
  match n with
  | O => Diverge
  | S n =>
    c <- deref h a ;;
    match c with
    | CPacket t f p b =>
      ' (h, b') <- copy_contents (clone n) h b ;;
      let (h, out) := alloc h (CPacket t f p b') in
      h <- clone_contents (clone n) h b out (CPacket t f p) ;;
      Ok (h, out)
    | _ => UB
    end
  end.

(** Assignment operators: Tag2.cpp 665-677, Tag5.cpp 457-465 (also for Tag7), Tag17.cpp 102-112,
    and those of the classes without pointers.  Both objects are of the same class. *)
Definition assign (n : nat) (h : heap) (dst src : addr) : result heap :=
  c <- deref h src ;; d <- deref h dst ;;
  match c, d with
  | CPacket t f p b, CPacket _ _ _ _ =>
    match b with
    | HSymSession v s s2k esk =>
      (** Tag3::operator=, Tag3.cpp 167-173: both pointers are dereferenced. *)
      match s2k, esk with
      | Some s2k, Some esk => ' (h, s2k) <- clone_s2k h s2k ;; ' (h, esk) <- clone_string h esk ;; Ok (put h dst (CPacket t f p (HSymSession v s (Some s2k) (Some esk))))
      | _, _ => UB
      end
    | _ => ' (h, b) <- copy_contents (clone n) h b ;; Ok (put h dst (CPacket t f p b))
    end
  | _, _ => UB
  end.
(** Tag3::get_s2k_clone, Tag3.cpp 101-103, and Tag5::get_s2k_clone, Tag5.cpp 256-258: the pointer
    is dereferenced. *)
Definition get_s2k_clone (h : heap) (a : addr) : result (heap * addr) :=
  c <- deref h a ;;
  match c with
  | CPacket _ _ _ (HSymSession _ _ (Some s) _) | CPacket _ _ _ (HSecret _ _ _ (Some s) _ _) => clone_s2k h s
  | _ => UB
  end.

(** PGP with its vector of pointers, include/PGP.h. *)
Record hpgp := mkHpgp { hg_armored : bool; hg_type : N; hg_keys : list (bytes * bytes); hg_packets : list addr }.
(** get_packets_clone, PGP.cpp 548-554; set_packets 568-570; set_packets_clone 572-577. *)
Definition get_packets_clone (n : nat) (h : heap) (g : hpgp) : result (heap * list addr) := clone_all (clone n) h (hg_packets g).
Definition set_packets (g : hpgp) (l : list addr) : hpgp := mkHpgp (hg_armored g) (hg_type g) (hg_keys g) l.
Definition set_packets_clone (n : nat) (h : heap) (g : hpgp) (l : list addr) : result (heap * hpgp) :=
  ' (h, l) <- clone_all (clone n) h l ;; Ok (h, set_packets g l).
(** The copy constructor, PGP.cpp 307-312, operator= 606-612 and clone 614-616; PublicKey's
    operator=, Key.cpp 569-580. *)
Definition pgp_copy (n : nat) (h : heap) (g : hpgp) : result (heap * hpgp) :=
  ' (h, l) <- get_packets_clone n h g ;; Ok (h, mkHpgp (hg_armored g) (hg_type g) (hg_keys g) l).
(** One packet of SecretKey::get_public, Key.cpp 627-637: Tag5::get_public_ptr and
    Tag7::get_public_ptr make a new object from what raw writes; the others are cloned. *)
Definition h_secret (h : heap) (b : hcontents) : result (key * secret) :=
  match b with
  | HSecret k c s None iv x => Ok (k, mkSecret c s None iv x)
  | HSecret k c s (Some a) iv x => d <- deref h a ;; match d with CS2k s2k => Ok (k, mkSecret c s (Some s2k) iv x) | _ => UB end
  | _ => UB
  end.
Definition public_one (n : nat) (h : heap) (a : addr) : result (heap * addr) :=
  c <- deref h a ;;
  match c with
  | CPacket t _ _ b =>
    if (t =? 5) || (t =? 7) then
      ' (k, s) <- h_secret h b ;; k <- get_public k s ;; Ok (alloc h (CPacket (if t =? 5 then 6 else 14) NEW NOT_PARTIAL (HPlain (PKey k))))
    else clone n h a
  | _ => UB
  end.
(** SecretKey::get_public, Key.cpp 619-642. *)
Definition h_get_public (n : nat) (h : heap) (g : hpgp) : result (heap * hpgp) :=
  ' (h, l) <- clone_all (public_one n) h (hg_packets g) ;; Ok (h, mkHpgp (hg_armored g) 2 (hg_keys g) l).
