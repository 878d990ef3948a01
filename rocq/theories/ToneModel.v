(** Model of /repo/src/BKTone.c. *)
From Verif Require Import CInt.

(** [tonePeriods], BKTone.c lines 31-42. *)
Definition tonePeriods : list Z :=
 [32063; 30263; 28565; 26962; 25448; 24020; 22672; 21399; 20198; 19065; 17994; 16985; 16031; 15131; 14282; 13481; 12724; 12010; 11336; 10699; 10099; 9532; 8997; 8492; 8015; 7565; 7141; 6740; 6362; 6005; 5668; 5349; 5049; 4766; 4498; 4246; 4007; 3782; 3570; 3370; 3181; 3002; 2834; 2674; 2524; 2383; 2249; 2123; 2003; 1891; 1785; 1685; 1590; 1501; 1417; 1337; 1262; 1191; 1124; 1061; 1001; 945; 892; 842; 795; 750; 708; 668; 631; 595; 562; 530; 500; 472; 446; 421; 397; 375; 354; 334; 315; 297; 281; 265; 250; 236; 223; 210; 198; 187; 177; 167; 157; 148; 140; 132; 125].

(** [log2Periods], BKTone.c lines 50-61. *)
Definition log2Periods : list Z :=
 [65536; 69432; 73561; 77935; 82570; 87480; 92681; 98193; 104031; 110217; 116771; 123715; 131072; 138865; 147123; 155871; 165140; 174960; 185363; 196386; 208063; 220435; 233543; 247430; 262144; 277731; 294246; 311743; 330280; 349920; 370727; 392772; 416127; 440871; 467087; 494861; 524288; 555463; 588493; 623487; 660561; 699840; 741455; 785544; 832255; 881743; 934175; 989723; 1048576; 1110927; 1176986; 1246974; 1321122; 1399681; 1482910; 1571088; 1664510; 1763487; 1868350; 1979447; 2097152; 2221855; 2353973; 2493948; 2642245; 2799362; 2965820; 3142177; 3329021; 3526975; 3736700; 3958895; 4194304; 4443710; 4707947; 4987896; 5284491; 5598724; 5931641; 6284355; 6658042; 7053950; 7473400; 7917791; 8388608; 8887420; 9415894; 9975792; 10568983; 11197448; 11863283; 12568710; 13316085; 14107900; 14946800; 15835583; 16777216].

(** BKTone.h lines 35-36 ([BK_C_0], [BK_C_8]); BKBase.h lines 96-97. *)
Definition BK_MIN_NOTE : Z := 0.
Definition BK_MAX_NOTE : Z := 96.
Definition BK_MIN_SAMPLE_RATE : Z := 16000.
Definition BK_MAX_SAMPLE_RATE : Z := 96000.

(** [BKTonePeriodLookup], BKTone.c lines 63-82 ([BK_TONE_SHIFT] 16,
    [BK_TONE_SAMPLE_RATE_SHIFT] 18).  All arithmetic is unsigned. *)
Definition BKTonePeriodLookup (tone sampleRate : Z) : res Z :=
  let tone := BKClamp tone (BK_MIN_NOTE * 2 ^ 20) (BK_MAX_NOTE * 2 ^ 20) in
  let frac := Z.shiftr (Z.land tone BK_FINT20_FRAC) (20 - 16) in
  let tone := Z.shiftr tone 20 in
  let sampleRate := BKClamp sampleRate BK_MIN_SAMPLE_RATE BK_MAX_SAMPLE_RATE in
  let* period1 := aget tonePeriods tone in
  let* period2 := aget tonePeriods (BKMin (tone + 1) BK_MAX_NOTE) in
  let period := u32 (u32 (period1 * u32 (65536 - frac)) + u32 (period2 * frac)) in
  Ok (u32 (Z.shiftl (u32 (Z.shiftr period 18 * sampleRate)) (18 - 16))).

(** [BKLog2PeriodLookup], BKTone.c lines 84-101. *)
Definition BKLog2PeriodLookup (tone : Z) : res Z :=
  let tone := BKClamp tone (BK_MIN_NOTE * 2 ^ 20) (BK_MAX_NOTE * 2 ^ 20) in
  let frac := Z.shiftr (Z.land tone BK_FINT20_FRAC) 12 in
  let tone := Z.shiftr tone 20 in
  let* period1 := aget log2Periods tone in
  let* period2 := aget log2Periods (BKMin (tone + 1) BK_MAX_NOTE) in
  let period1 := Z.shiftr period1 2 in
  let period2 := Z.shiftr period2 2 in
  let period := u32 (u32 (period1 * u32 (Z.shiftr BK_FINT20_UNIT 12 - frac)) + u32 (period2 * frac)) in
  Ok (Z.shiftr period 6).
