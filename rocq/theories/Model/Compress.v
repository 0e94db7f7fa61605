(** The loops around the compression libraries: src/Compress/pgpzlib.cpp and pgpbzip2.cpp.  The
    libraries themselves are arguments: a function from the state of the stream, the input
    offered (next_in, avail_in) and the room offered (avail_out) to what the call did.
    Initialisation is taken to succeed, memory not to run out. *)
From Verif Require Export Model.Base.

(** What a call returned.  Fine: Z_OK, Z_BUF_ERROR, BZ_OK, BZ_RUN_OK, BZ_FINISH_OK, BZ_PARAM_ERROR;
    End: Z_STREAM_END, BZ_STREAM_END; Bad: Z_DATA_ERROR, Z_NEED_DICT and bzip2's errors in the data;
    Misuse: Z_STREAM_ERROR, BZ_SEQUENCE_ERROR. *)
Inductive code := Fine | End | Bad | Misuse.
Record call (St : Type) := mkCall { c_state : St; c_rest : bytes; c_out : bytes; c_code : code }.
Arguments mkCall {St}. Arguments c_state {St}. Arguments c_rest {St}. Arguments c_out {St}. Arguments c_code {St}.

(** ZLIB_CHUNK, include/Compress/pgpzlib.h 15; bz2_BUFFER_SIZE, include/Compress/pgpbzip2.h 30. *)
Definition zlib_chunk : N := 16384.
Definition bz2_chunk : N := 4096.

(** strm.avail_in = ((index + CHUNK) < len)?CHUNK:(len - index), pgpzlib.cpp 44 and 114,
    pgpbzip2.cpp 28 and 74: unsigned int. *)
Definition avail (chunk index len : N) : N :=
  if (index + chunk) mod 2 ^ 32 <? len then chunk else (len + 2 ^ 32 - index) mod 2 ^ 32.
(** The octets the library finds behind &src[index]: the string ends with a zero, what lies
    behind that is undefined behaviour. *)
Definition piece (src : bytes) (index n : N) : result bytes :=
  if index + n <=? len src + 1 then Ok (firstn (N.to_nat n) (skipn (N.to_nat index) (src ++ [0]))) else UB.

(** An assertion that fails stops the program: UB. *)
Definition assert_ (b : bool) : result unit := if b then Ok tt else UB.
Definition ended (c : code) : bool := match c with End => true | _ => false end.
Definition empty (b : bytes) : bool := match b with [] => true | _ => false end.

(** zlib_compress, pgpzlib.cpp 13-74, and bz2_compress, pgpbzip2.cpp 5-49: the same loops but for
    the size of the pieces.  [deflate st finish input room] is deflate or BZ2_bzCompress. *)
Section Compress.
  Variable St : Type.
  Variable chunk : N.
  Variable deflate : St -> bool -> bytes -> N -> call St.
  (** The inner loop, 53-64 and 35-42: until the buffer was not filled. *)
  Fixpoint deflate_piece (fuel : nat) (st : St) (finish : bool) (input dst : bytes) : result (St * bytes * bytes * code) :=
    match fuel with
    | O => Diverge
    | S f =>
      let c := deflate st finish input chunk in
      match c_code c with
      | Misuse => UB
      | _ =>
        let dst := dst ++ c_out c in
        if len (c_out c) =? chunk then deflate_piece f (c_state c) finish (c_rest c) dst
        else Ok (c_state c, c_rest c, dst, c_code c)
      end
    end.
  (** The outer loop, 36-69 and 27-46; [n] is the 32 bit length. *)
  Fixpoint deflate_pieces (fuel : nat) (src : bytes) (n index : N) (st : St) (dst : bytes) : result bytes :=
    match fuel with
    | O => Diverge
    | S f =>
      let a := avail chunk index n in
      input <- piece src index a ;;
      let index := (index + a) mod 2 ^ 32 in
      let finish := index =? n in
      ' (st, rest, dst, rc) <- deflate_piece fuel st finish input dst ;;
      _ <- assert_ (empty rest) ;;
      if finish then _ <- assert_ (ended rc) ;; Ok dst
      else deflate_pieces f src n index st dst
    end.
  Definition compress_with (fuel : nat) (start : St) (src : bytes) : result bytes :=
    deflate_pieces fuel src (len src mod 2 ^ 32) 0 start [].
End Compress.

(** zlib_decompress, pgpzlib.cpp 82-154; None is a return value other than Z_OK. *)
Section Inflate.
  Variable St : Type.
  Variable inflate : St -> bytes -> N -> call St.
  (** The inner loop, 123-146. *)
  Fixpoint inflate_piece (fuel : nat) (st : St) (input dst : bytes) : result (option (St * bytes * code)) :=
    match fuel with
    | O => Diverge
    | S f =>
      let c := inflate st input zlib_chunk in
      match c_code c with
      | Misuse => UB
      | Bad => Ok None
      | _ =>
        let dst := dst ++ c_out c in
        if len (c_out c) =? zlib_chunk then inflate_piece f (c_state c) (c_rest c) dst
        else Ok (Some (c_state c, dst, c_code c))
      end
    end.
  (** The outer loop, 107-153; what a piece leaves over is dropped when the next is set up. *)
  Fixpoint inflate_pieces (fuel : nat) (src : bytes) (n index : N) (st : St) (dst : bytes) : result (option bytes) :=
    match fuel with
    | O => Diverge
    | S f =>
      let a := avail zlib_chunk index n in
      input <- piece src index a ;;
      if a =? 0 then Ok None
      else
        o <- inflate_piece fuel st input dst ;;
        match o with
        | None => Ok None
        | Some (st, dst, rc) =>
          if ended rc then Ok (Some dst) else inflate_pieces f src n ((index + a) mod 2 ^ 32) st dst
        end
    end.
  Definition zlib_decompress (fuel : nat) (start : St) (src : bytes) : result (option bytes) :=
    inflate_pieces fuel src (len src mod 2 ^ 32) 0 start [].
End Inflate.

(** bz2_decompress, pgpbzip2.cpp 51-94. *)
Section Bunzip.
  Variable St : Type.
  Variable bunzip : St -> bytes -> N -> call St.
  (** The inner loop, 80-88. *)
  Fixpoint bunzip_piece (fuel : nat) (st : St) (input dst : bytes) : result (St * bytes * bytes * code) :=
    match fuel with
    | O => Diverge
    | S f =>
      let c := bunzip st input bz2_chunk in
      match c_code c with
      | Misuse | Bad => UB
      | _ =>
        let dst := dst ++ c_out c in
        if len (c_out c) =? bz2_chunk then bunzip_piece f (c_state c) (c_rest c) dst
        else Ok (c_state c, c_rest c, dst, c_code c)
      end
    end.
  (** The outer loop, 73-91: it has no test for the end of the input. *)
  Fixpoint bunzip_pieces (fuel : nat) (src : bytes) (n index : N) (st : St) (dst : bytes) : result (option bytes) :=
    match fuel with
    | O => Diverge
    | S f =>
      let a := avail bz2_chunk index n in
      input <- piece src index a ;;
      ' (st, rest, dst, rc) <- bunzip_piece fuel st input dst ;;
      _ <- assert_ (empty rest) ;;
      if ended rc then Ok (Some dst) else bunzip_pieces f src n ((index + a) mod 2 ^ 32) st dst
    end.
  Definition bz2_decompress (fuel : nat) (start : St) (src : bytes) : result (option bytes) :=
    bunzip_pieces fuel src (len src mod 2 ^ 32) 0 start [].
End Bunzip.
