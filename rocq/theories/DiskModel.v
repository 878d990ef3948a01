(** Model of BKWaveFileWriter.c on a disk with limited space.

    The functions of WaveModel.v again, with the results of [fwrite] and [fseek] a full disk
    gives.  None of these results is looked at by the code.  A write stores the bytes for
    which there is room.  Buffers of the C library are not modelled, except that [fseek] may
    fail if the disk is full: it has to write the buffer before. *)
From Verif Require Import CInt WaveModel.

(** Where [fwrite] starts. *)
Definition start (f : file) : nat := if f_append f then length (f_bytes f) else Z.to_nat (f_pos f).

(** [fwrite] if the file cannot have more than [room] bytes. *)
Definition fwrite_on (room : nat) (f : file) (bs : list Z) : file :=
  fwrite f (firstn (room - start f) bs).

(** [fseek]: if the disk is full, [ok] tells whether it succeeds. *)
Definition fseek_on (room : nat) (ok : bool) (f : file) (pos : Z) : file :=
  if ok || (length (f_bytes f) <? room)%nat then fseek f pos else f.

(** [BKWaveFileWriterWriteHeader], lines 123-163. *)
Definition write_header_on (room : nat) (big : bool) (w : writer) : res (Z * writer) :=
  let* f := the_file w in
  let* m := chk32 (wr_rate w * wr_channels w) in
  let* _ := chk32 (m * wr_bits w) in
  let* a := chk32 (wr_channels w * wr_bits w) in
  let blockAlign := u16 (Z.quot a 8) in
  let* r := chk32 (wr_rate w * blockAlign) in
  let rev16 v := if wr_reverse w then BKInt16Reverse v else v in
  let rev32 v := if wr_reverse w then BKInt32Reverse v else v in
  let f := fwrite_on room f (RIFF ++ mem32 big 0 ++ WAVE) in
  let f := fwrite_on room f (FMT ++ mem32 big (rev32 16) ++ mem16 big 1 ++ mem16 big (rev16 (u16 (wr_channels w)))
                     ++ mem32 big (rev32 (u32 (wr_rate w))) ++ mem32 big (rev32 (u32 r))
                     ++ mem16 big (rev16 blockAlign) ++ mem16 big (rev16 (u16 (wr_bits w)))) in
  let f := fwrite_on room f (DATA ++ mem32 big 0) in
  Ok (0, mk_writer (Some f) (wr_offset w) (wr_rate w) (wr_channels w) (wr_bits w)
                (wr_fileSize w + (f_pos f - 8)) (wr_dataSize w) (wr_reverse w) true (wr_terminated w)).

(** The loop of lines 184-203. *)
Fixpoint write_loop_on (room n : nat) (big : bool) (numBits : Z) (f : file) (frames : list Z) : res file :=
  match frames with
  | [] => Ok f
  | _ =>
    match n with
    | O => Err EFuel
    | S n =>
      let f := fwrite_on room f (concat (map (put_frame big numBits) (firstn 1024 frames))) in
      write_loop_on room n big numBits f (skipn 1024 frames)
    end
  end.

(** [BKWaveFileWriterAppendFrames], lines 165-215: value returned and the writer. *)
Definition append_on (room : nat) (big : bool) (w : writer) (frames : list Z) : res (Z * writer) :=
  let* (r, w) := (if wr_header w then Ok (0, w) else write_header_on room big w) in
  if r <? 0 then Ok (-1, w) else
  let* f := the_file w in
  let* numFrames := chk32 (Z.of_nat (length frames)) in
  let* dataSize := chk32 (Z.quot (wr_bits w) 8 * numFrames) in
  let* f := (if wr_reverse w || negb (wr_bits w =? 16)
             then write_loop_on room (length frames) big (wr_bits w) f frames
             else Ok (fwrite_on room f (concat (map (fun v => mem16 big (u16 v)) frames)))) in
  Ok (0, mk_writer (Some f) (wr_offset w) (wr_rate w) (wr_channels w) (wr_bits w)
                (wr_fileSize w + dataSize) (wr_dataSize w + dataSize) (wr_reverse w) (wr_header w) false).

(** [BKWaveFileWriterTerminate], lines 217-250: the calls of [fseek] either all succeed or
    all fail. *)
Definition terminate_on (room : nat) (ok big : bool) (w : writer) : res (Z * writer) :=
  let* f := the_file w in
  let rev32 v := if wr_reverse w then BKInt32Reverse v else v in
  let f := fwrite_on room (fseek_on room ok f (wr_offset w + 4)) (mem32 big (rev32 (u32 (wr_fileSize w)))) in
  let f := fwrite_on room (fseek_on room ok f (wr_offset w + 12 + 24 + 4)) (mem32 big (rev32 (u32 (wr_dataSize w)))) in
  Ok (0, mk_writer (Some (fseek_on room ok f (fsize f))) (wr_offset w) (wr_rate w) (wr_channels w) (wr_bits w)
                (wr_fileSize w) (wr_dataSize w) (wr_reverse w) (wr_header w) true).

(** [BKWaveFileWriterDispose], lines 116-121: the file the client is left with. *)
Definition dispose_on (room : nat) (ok big : bool) (w : writer) : res file :=
  let* (_, w) := (if wr_terminated w then Ok (0, w) else terminate_on room ok big w) in
  the_file w.

(** Calls of a client with the values returned. *)
Definition wstep_on (room : nat) (ok big : bool) (w : writer) (o : wop) : res (Z * writer) :=
  match o with
  | WAppend frames => append_on room big w frames
  | WTerminate => terminate_on room ok big w
  end.
Fixpoint wruns_on (room : nat) (ok big : bool) (w : writer) (ops : list wop) : res (list Z * writer) :=
  match ops with
  | [] => Ok ([], w)
  | o :: ops =>
    let* (r, w) := wstep_on room ok big w o in
    let* (rs, w) := wruns_on room ok big w ops in
    Ok (r :: rs, w)
  end.

(** Initialise, calls, dispose: the values returned and the file. *)
Definition writes_on (room : nat) (ok big : bool) (f : file) (ch rate bits : Z) (ops : list wop) : res (list Z * file) :=
  match BKWaveFileWriterInit big f ch rate bits with
  | (0, Some w) =>
    let* (rs, w) := wruns_on room ok big w ops in
    let* f := dispose_on room ok big w in
    Ok (0 :: rs, f)
  | _ => Err ENull
  end.
