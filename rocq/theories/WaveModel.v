(** Model of BKWaveFileWriter.c, BKWaveFileReader.c and BKWaveFile_internal.h.

    A file is its bytes with a position; errors of the file system (full disk, failed reads)
    are not modelled.  [long] and [BKSize] have 64 bits.  [big] is the result of
    [BKSystemIsBigEndian] (BKWaveFile_internal.h lines 73-80): it decides how integers lie in
    memory. *)
From Verif Require Import CInt.

(** BKBase.h lines 369-372. *)
Definition BK_FILE_NOT_SEEKABLE_ERROR : Z := -28660.

(** ** Bytes *)

(** Bytes of an integer, least significant first. *)
Definition le16 (v : Z) : list Z := [v mod 256; v / 256 mod 256].
Definition le32 (v : Z) : list Z := [v mod 256; v / 256 mod 256; v / 65536 mod 256; v / 16777216 mod 256].
(** How an integer lies in memory. *)
Definition mem16 (big : bool) (v : Z) : list Z := if big then rev (le16 v) else le16 v.
Definition mem32 (big : bool) (v : Z) : list Z := if big then rev (le32 v) else le32 v.

(** Value of bytes, least significant first. *)
Fixpoint le_val (bs : list Z) : Z :=
  match bs with [] => 0 | b :: bs => b + 256 * le_val bs end.
Definition load (big : bool) (bs : list Z) : Z := le_val (if big then rev bs else bs).

(** [BKInt32Reverse] and [BKInt16Reverse], BKWaveFile_internal.h lines 85-111. *)
Definition BKInt32Reverse (i : Z) : Z := le_val (rev (le32 i)).
Definition BKInt16Reverse (i : Z) : Z := le_val (rev (le16 i)).

(** The identifiers as ASCII codes. *)
Definition RIFF : list Z := [82; 73; 70; 70].
Definition WAVE : list Z := [87; 65; 86; 69].
Definition FMT : list Z := [102; 109; 116; 32].
Definition DATA : list Z := [100; 97; 116; 97].

(** [memcmp (a, b, 4) == 0]. *)
Fixpoint same_bytes (a b : list Z) : bool :=
  match a, b with
  | [], [] => true
  | x :: a, y :: b => (x =? y) && same_bytes a b
  | _, _ => false
  end.

(** ** Files *)

(** [FILE]: contents and position, access mode ([O_ACCMODE]: 0 [O_RDONLY], 1 [O_WRONLY],
    2 [O_RDWR]), whether it was opened for appending ("a", "a+") and whether it is seekable. *)
Record file := mk_file { f_bytes : list Z; f_pos : Z; f_mode : Z; f_append : bool; f_seekable : bool }.

(** [fseek (file, pos, SEEK_SET)] and the others, for a seekable file. *)
Definition fseek (f : file) (pos : Z) : file := mk_file (f_bytes f) pos (f_mode f) (f_append f) (f_seekable f).
Definition fsize (f : file) : Z := Z.of_nat (length (f_bytes f)).
Definition fseek_end (f : file) : file := fseek f (fsize f).

(** [fread (buffer, 1, n, file)]: fewer bytes at the end of the file. *)
Definition fread (f : file) (n : Z) : list Z * file :=
  let bs := firstn (Z.to_nat n) (skipn (Z.to_nat (f_pos f)) (f_bytes f)) in
  (bs, fseek f (f_pos f + Z.of_nat (length bs))).

(** [fwrite]: at the position, or at the end if the file was opened for appending; a gap
    is filled with zeros. *)
Definition fwrite (f : file) (bs : list Z) : file :=
  match bs with
  | [] => f
  | _ =>
    let pos := if f_append f then length (f_bytes f) else Z.to_nat (f_pos f) in
    let old := f_bytes f ++ repeat 0 (pos - length (f_bytes f)) in
    mk_file (firstn pos old ++ bs ++ skipn (pos + length bs) old)
            (Z.of_nat (pos + length bs)) (f_mode f) (f_append f) (f_seekable f)
  end.

(** ** Writer *)

(** [struct BKWaveFileWriter], BKWaveFileWriter.h lines 51-64; the two flags of lines 28-32
    of BKWaveFileWriter.c are fields here.  [wr_file] is [None] for the null pointer. *)
Record writer := mk_writer {
  wr_file : option file;
  wr_offset : Z;       (* initOffset *)
  wr_rate : Z;
  wr_channels : Z;
  wr_bits : Z;
  wr_fileSize : Z;
  wr_dataSize : Z;
  wr_reverse : bool;   (* reverseEndian *)
  wr_header : bool;    (* BKWaveFileFlagHeaderWritten *)
  wr_terminated : bool (* BKWaveFileFlagTerminated *)
}.

(** [BKCheckFile], lines 65-85; [fcntl] does not fail here. *)
Definition check_writable (f : file) : Z :=
  if negb (f_seekable f) then BK_FILE_NOT_SEEKABLE_ERROR
  else if negb (f_mode f =? 2) && negb (f_mode f =? 1) then BK_FILE_NOT_WRITABLE_ERROR
  else 0.

(** [BKWaveFileWriterInit], lines 87-114: value returned and the writer, if the structure
    was initialised. *)
Definition BKWaveFileWriterInit (big : bool) (f : file) (numChannels sampleRate numBits : Z) : Z * option writer :=
  let r := check_writable f in
  if negb (r =? 0) then (r, None) else
  let numBits := if numBits =? 0 then 16 else numBits in
  if negb (numBits =? 8) && negb (numBits =? 16)
  then (BK_INVALID_VALUE, Some (mk_writer None 0 0 0 0 0 0 false false false))
  else (0, Some (mk_writer (Some f) (f_pos f) sampleRate numChannels numBits 0 0 big false false)).

(** [writer -> file] as used by the functions of the C library. *)
Definition the_file (w : writer) : res file :=
  match wr_file w with Some f => Ok f | None => Err ENull end.

(** [BKWaveFileWriterWriteHeader], lines 123-163.  [audioFormat] is not reversed. *)
Definition BKWaveFileWriterWriteHeader (big : bool) (w : writer) : res writer :=
  let* f := the_file w in
  let* m := chk32 (wr_rate w * wr_channels w) in
  let* _ := chk32 (m * wr_bits w) in
  let* a := chk32 (wr_channels w * wr_bits w) in
  let blockAlign := u16 (Z.quot a 8) in
  let* r := chk32 (wr_rate w * blockAlign) in
  let rev16 v := if wr_reverse w then BKInt16Reverse v else v in
  let rev32 v := if wr_reverse w then BKInt32Reverse v else v in
  let f := fwrite f (RIFF ++ mem32 big 0 ++ WAVE) in
  let f := fwrite f (FMT ++ mem32 big (rev32 16) ++ mem16 big 1 ++ mem16 big (rev16 (u16 (wr_channels w)))
                     ++ mem32 big (rev32 (u32 (wr_rate w))) ++ mem32 big (rev32 (u32 r))
                     ++ mem16 big (rev16 blockAlign) ++ mem16 big (rev16 (u16 (wr_bits w)))) in
  let f := fwrite f (DATA ++ mem32 big 0) in
  Ok (mk_writer (Some f) (wr_offset w) (wr_rate w) (wr_channels w) (wr_bits w)
                (wr_fileSize w + (f_pos f - 8)) (wr_dataSize w) (wr_reverse w) true (wr_terminated w)).

(** Lines 187-197: a frame as it is stored in [buffer]. *)
Definition put_frame (big : bool) (numBits : Z) (frame : Z) : list Z :=
  if numBits =? 8 then [u8 (Z.shiftr frame 8 + 128)]
  else mem16 big (BKInt16Reverse (u16 frame)).
(** The loop of lines 184-203; [n] bounds the iterations. *)
Fixpoint write_loop (n : nat) (big : bool) (numBits : Z) (f : file) (frames : list Z) : res file :=
  match frames with
  | [] => Ok f
  | _ =>
    match n with
    | O => Err EFuel
    | S n =>
      let f := fwrite f (concat (map (put_frame big numBits) (firstn 1024 frames))) in
      write_loop n big numBits f (skipn 1024 frames)
    end
  end.

(** [BKWaveFileWriterAppendFrames], lines 165-215; [numFrames] is the length of [frames]. *)
Definition BKWaveFileWriterAppendFrames (big : bool) (w : writer) (frames : list Z) : res writer :=
  let* w := (if wr_header w then Ok w else BKWaveFileWriterWriteHeader big w) in
  let* f := the_file w in
  let* numFrames := chk32 (Z.of_nat (length frames)) in
  let* dataSize := chk32 (Z.quot (wr_bits w) 8 * numFrames) in
  let* f := (if wr_reverse w || negb (wr_bits w =? 16)
             then write_loop (length frames) big (wr_bits w) f frames
             else Ok (fwrite f (concat (map (fun v => mem16 big (u16 v)) frames)))) in
  Ok (mk_writer (Some f) (wr_offset w) (wr_rate w) (wr_channels w) (wr_bits w)
                (wr_fileSize w + dataSize) (wr_dataSize w + dataSize) (wr_reverse w) (wr_header w) false).

(** [BKWaveFileWriterTerminate], lines 217-250. *)
Definition BKWaveFileWriterTerminate (big : bool) (w : writer) : res writer :=
  let* f := the_file w in
  let rev32 v := if wr_reverse w then BKInt32Reverse v else v in
  let f := fwrite (fseek f (wr_offset w + 4)) (mem32 big (rev32 (u32 (wr_fileSize w)))) in
  let f := fwrite (fseek f (wr_offset w + 12 + 24 + 4)) (mem32 big (rev32 (u32 (wr_dataSize w)))) in
  Ok (mk_writer (Some (fseek_end f)) (wr_offset w) (wr_rate w) (wr_channels w) (wr_bits w)
                (wr_fileSize w) (wr_dataSize w) (wr_reverse w) (wr_header w) true).

(** [BKWaveFileWriterDispose], lines 116-121: the file the client is left with. *)
Definition BKWaveFileWriterDispose (big : bool) (w : writer) : res file :=
  let* w := (if wr_terminated w then Ok w else BKWaveFileWriterTerminate big w) in
  the_file w.

(** [BKWaveFileWriteData], lines 252-266, of a data object with the given channels and
    frames: value returned and the file. *)
Definition BKWaveFileWriteData (big : bool) (f : file) (numChannels : Z) (frames : list Z) (sampleRate numBits : Z) : res (Z * file) :=
  match BKWaveFileWriterInit big f sampleRate numChannels numBits with
  | (0, Some w) =>
    let* w := BKWaveFileWriterAppendFrames big w frames in
    let* w := BKWaveFileWriterTerminate big w in
    let* f := BKWaveFileWriterDispose big w in
    Ok (0, f)
  | _ => Ok (-1, f)
  end.

(** What a client can do with a writer before disposing it. *)
Inductive wop :=
| WAppend (frames : list Z)
| WTerminate.

Definition wstep (big : bool) (w : writer) (o : wop) : res writer :=
  match o with
  | WAppend frames => BKWaveFileWriterAppendFrames big w frames
  | WTerminate => BKWaveFileWriterTerminate big w
  end.
Fixpoint wruns (big : bool) (w : writer) (ops : list wop) : res writer :=
  match ops with
  | [] => Ok w
  | o :: ops => let* w := wstep big w o in wruns big w ops
  end.

(** ** Reader *)

(** [struct BKWaveFileReader], BKWaveFileReader.h lines 54-63. *)
Record reader := mk_reader {
  rd_file : file; rd_rate : Z; rd_channels : Z; rd_bits : Z; rd_frames : Z; rd_dataSize : Z
}.

(** [BKCheckFile], BKWaveFileReader.c lines 30-50. *)
Definition check_readable (f : file) : Z :=
  if negb (f_seekable f) then BK_FILE_NOT_SEEKABLE_ERROR
  else if negb (f_mode f =? 2) && negb (f_mode f =? 0) then BK_FILE_NOT_READABLE_ERROR
  else 0.

(** [BKWaveFileReaderInit], lines 52-67. *)
Definition BKWaveFileReaderInit (f : file) : Z * option reader :=
  let r := check_readable f in
  if negb (r =? 0) then (r, None) else (0, Some (mk_reader f 0 0 0 0 0)).

(** Field of [n] bytes at offset [i] of a structure; the functions of lines 73-91 reverse
    it on systems with big endian order. *)
Definition field (i n : nat) (bs : list Z) : list Z := firstn n (skipn i bs).
Definition number (big : bool) (i n : nat) (bs : list Z) : Z :=
  let v := load big (field i n bs) in
  if big then (if Nat.eqb n 2 then BKInt16Reverse v else BKInt32Reverse v) else v.

(** The loop of lines 136-152: [None] if no data chunk was found. *)
Fixpoint find_data (n : nat) (big : bool) (f : file) : res (file * option Z) :=
  match n with
  | O => Err EFuel
  | S n =>
    let (bs, f) := fread f 8 in
    if Z.of_nat (length bs) <? 8 then Ok (f, None) else
    let size := number big 4 4 bs in
    if same_bytes (field 0 4 bs) DATA then Ok (f, Some size)
    else find_data n big (fseek f (f_pos f + size))
  end.

Definition with_file (r : reader) (f : file) : reader :=
  mk_reader f (rd_rate r) (rd_channels r) (rd_bits r) (rd_frames r) (rd_dataSize r).

(** Lines 101-187 of [BKWaveFileReaderReadHeader]: reader and value returned. *)
Definition read_header (n : nat) (big : bool) (r : reader) : res (reader * Z) :=
  let (header, f) := fread (rd_file r) 12 in
  if Z.of_nat (length header) <? 12 then Ok (with_file r f, -1) else
  if negb (same_bytes (field 0 4 header) RIFF) then Ok (with_file r f, -1) else
  if negb (same_bytes (field 8 4 header) WAVE) then Ok (with_file r f, -1) else
  let (fmt, f) := fread f 24 in
  if Z.of_nat (length fmt) <? 24 then Ok (with_file r f, -1) else
  if negb (same_bytes (field 0 4 fmt) FMT) then Ok (with_file r f, -1) else
  if negb (number big 8 2 fmt =? 1) then Ok (with_file r f, -1) else
  let bits := number big 22 2 fmt in
  if negb (bits =? 8) && negb (bits =? 16) then Ok (with_file r f, -1) else
  let* (f, found) := find_data n big f in
  match found with
  | None => Ok (with_file r f, -1)
  | Some size =>
    let channels := number big 10 2 fmt in
    let frameSize := if bits =? 8 then 1 else 2 in
    let dataSize := if size =? 0 then fsize f - f_pos f else size in
    if channels =? 0 then Err EDiv0 else
    let frames := s32 (Z.quot (Z.quot (s32 dataSize) channels) frameSize) in
    Ok (mk_reader f (s32 (number big 12 4 fmt)) channels bits frames dataSize, 0)
  end.

(** [BKWaveFileReaderReadHeader], lines 93-194: reader, value returned, number of channels,
    sample rate and number of frames. *)
Definition BKWaveFileReaderReadHeader (n : nat) (big : bool) (r : reader) : res (reader * Z * (Z * Z * Z)) :=
  let* (r, ret) := (if rd_rate r =? 0 then read_header n big r else Ok (r, 0)) in
  Ok (r, ret, if ret =? 0 then (rd_channels r, rd_rate r, rd_frames r) else (0, 0, 0)).

(** Frames of a buffer, lines 242-268.  The shift of a negative value in line 245 is a
    multiplication, as all compilers define it. *)
Fixpoint frames16 (big : bool) (bs : list Z) : list Z :=
  match bs with
  | a :: b :: bs =>
    let v := load big [a; b] in
    s16 (if big then BKInt16Reverse v else v) :: frames16 big bs
  | _ => []
  end.
Definition frames8 (bs : list Z) : list Z := map (fun b => s16 ((b - 128) * 256)) bs.

(** [* outFrames ++ = frame], in an array of which [out] is the contents. *)
Fixpoint store (out : list Z) (i : Z) (frames : list Z) : res (list Z) :=
  match frames with
  | [] => Ok out
  | v :: frames => let* out := aset out i v in store out (i + 1) frames
  end.

(** The loop of lines 226-269: file, bytes read, contents of the array and index. *)
Fixpoint read_blocks (n : nat) (big : bool) (bits : Z) (f : file) (remaining written : Z) (out : list Z) (i : Z)
  : res (file * Z * list Z * Z) :=
  if remaining =? 0 then Ok (f, written, out, i) else
  match n with
  | O => Err EFuel
  | S n =>
    let mask := if bits =? 8 then 4294967295 else 4294967294 in
    let readSize := Z.land (BKMin remaining 1024) mask in
    let (bs, f) := fread f readSize in
    let readSize := Z.land (Z.of_nat (length bs)) mask in
    if readSize =? 0 then Ok (f, written, out, i) else
    let bs := firstn (Z.to_nat readSize) bs in
    let fs := if bits =? 8 then frames8 bs else frames16 big bs in
    let* out := store out i fs in
    read_blocks n big bits f (remaining - readSize) (written + readSize) out (i + Z.of_nat (length fs))
  end.

(** A frame whose first byte in memory was set to 0. *)
Definition half_zero (big : bool) (frame : Z) : Z :=
  s16 (if big then u16 frame mod 256 else u16 frame / 256 * 256).
(** [memset (outFrames, 0, bytes)]. *)
Definition clear_bytes (big : bool) (out : list Z) (i bytes : Z) : res (list Z) :=
  let* out := store out i (repeat 0 (Z.to_nat (bytes / 2))) in
  if bytes mod 2 =? 0 then Ok out else
  let* v := aget out (i + bytes / 2) in
  aset out (i + bytes / 2) (half_zero big v).

(** [BKWaveFileReaderReadFrames], lines 196-275, into an array with contents [out]. *)
Definition BKWaveFileReaderReadFrames (n : nat) (big : bool) (r : reader) (out : list Z) : res (reader * list Z) :=
  let* (f, written, out, i) := read_blocks n big (rd_bits r) (rd_file r) (rd_dataSize r) 0 out 0 in
  let* out := clear_bytes big out i (rd_dataSize r - written) in
  Ok (with_file r f, out).
