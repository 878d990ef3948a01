(** What a WAVE file is and which writers and files are considered. *)
From Verif Require Import CInt WaveModel.

(** The canonical header: RIFF chunk with [riff] bytes, format chunk and data chunk with [data] bytes. *)
Definition wav_header (channels rate bits riff data : Z) : list Z :=
  RIFF ++ le32 riff ++ WAVE
  ++ FMT ++ le32 16 ++ le16 1 ++ le16 channels ++ le32 rate ++ le32 (rate * channels * (bits / 8))
  ++ le16 (channels * (bits / 8)) ++ le16 bits
  ++ DATA ++ le32 data.

(** Samples as they are stored: 8 bits without sign or 16 bits with sign. *)
Definition encode (bits : Z) (frames : list Z) : list Z :=
  if bits =? 8 then map (fun v => v / 256 + 128) frames
  else concat (map (fun v => le16 (v mod 65536)) frames).

(** What is left of a frame with 8 bits. *)
Definition quantised (bits v : Z) : Z := if bits =? 8 then v - v mod 256 else v.

Definition frame_ok (v : Z) : Prop := -32768 <= v <= 32767.
Definition byte_ok (b : Z) : Prop := 0 <= b <= 255.

(** A file a writer accepts: its end is where writing starts.  This is the case for new
    files and for files positioned at their end. *)
Definition writable (f : file) : Prop :=
  (f_mode f = 1 \/ f_mode f = 2) /\ f_seekable f = true /\ f_append f = false /\ f_pos f = fsize f.

(** A format whose header fields have their size. *)
Definition format_ok (channels rate bits : Z) : Prop :=
  1 <= channels /\ channels * (bits / 8) <= 65535 /\ 0 < rate /\ rate * channels * bits <= 2147483647 /\ (bits = 8 \/ bits = 16).

(** All frames which were appended, and those appended before the last [WTerminate]. *)
Fixpoint appended (ops : list wop) : list Z :=
  match ops with
  | [] => []
  | WAppend fs :: ops => fs ++ appended ops
  | WTerminate :: ops => appended ops
  end.
Fixpoint finished (before : list Z) (done : option (list Z)) (ops : list wop) : option (list Z) :=
  match ops with
  | [] => done
  | WAppend fs :: ops => finished (before ++ fs) done ops
  | WTerminate :: ops => finished before (Some before) ops
  end.

(** Histories of a writer: the first call appends frames (maybe none), every call appends
    frames whose bytes can be counted. *)
Definition append_ok (bits : Z) (o : wop) : Prop :=
  match o with
  | WAppend fs => Forall frame_ok fs /\ bits / 8 * Z.of_nat (length fs) <= 2147483647
  | WTerminate => True
  end.
Definition history_ok (bits : Z) (ops : list wop) : Prop :=
  Forall (append_ok bits) ops /\ match ops with WAppend _ :: _ => True | _ => False end.

(** Opening a file for reading at a position. *)
Definition opened (bytes : list Z) (pos : Z) : reader := mk_reader (mk_file bytes pos 0 false true) 0 0 0 0 0.

(** Extra chunks of a RIFF file: name and contents, padded to an even size. *)
Definition chunk_bytes (c : list Z * list Z) : list Z :=
  let (name, body) := c in
  name ++ le32 (Z.of_nat (length body)) ++ body ++ (if Nat.even (length body) then [] else [0]).
Definition chunk_ok (c : list Z * list Z) : Prop :=
  let (name, body) := c in
  length name = 4%nat /\ name <> DATA /\ Z.of_nat (length body) < 4294967296.

(** A header with chunks between the format and the data chunk. *)
Definition wav_chunks (channels rate bits riff data : Z) (chunks : list (list Z * list Z)) : list Z :=
  RIFF ++ le32 riff ++ WAVE
  ++ FMT ++ le32 16 ++ le16 1 ++ le16 channels ++ le32 rate ++ le32 (rate * channels * (bits / 8))
  ++ le16 (channels * (bits / 8)) ++ le16 bits
  ++ concat (map chunk_bytes chunks) ++ DATA ++ le32 data.
