(** * C60: what the inspector prints of a record can be read back.
    Vocabulary: ShowSpec.v (lines, fields, words and numbers in a text). *)

From Coq Require Import String.
From Verif Require Import Base TimeModel TimeStrModel RecModel SampleModel RawModel ShowModel ShowSpec ShowProof.
From Coq Require Import SpecFloat.
From Verif Require DblModel.
Open Scope Z_scope.
Open Scope list_scope.

(** ** C60 *)

(** Without details there is one line with six fields separated by a comma and a blank:
    identifier, version, length, number of samples, rate and start time; the numbers and
    the time read in it are those of the record. *)
Theorem C60_summary : forall mode hz m details, header_fits m -> plain 20 (hz (sampratehz (m_rate m))) -> details <= 0 ->
  exists out line pub len cnt time, msr_print hz m details = Ok out /\ lines out = [line] /\ ended out /\
    fields 5 (zs ", ") line = Some [m_sid m; pub; len; cnt ++ zs " samples"; hz (sampratehz (m_rate m)) ++ zs " Hz"; time] /\
    number pub = Some (m_pub m) /\ number len = Some (m_reclen m) /\ number cnt = Some (m_cnt m) /\
    mdtimestr2nstime mode time = Ok (m_start m).
Proof. exact summary. Qed.
Print Assumptions C60_summary.

(** With details there is a line for every field of the header, with its name and the value
    that the record has; the flags are there from the second level on. *)
Theorem C60_details : forall mode hz m details, header_fits m -> plain 20 (hz (sampratehz (m_rate m))) -> 0 < details ->
  exists out first ls time enc, msr_print hz m details = Ok out /\ lines out = first :: ls /\ (m_extra m = [] -> ended out) /\
    read_first first = Some (m_sid m, Some (m_pub m), Some (m_reclen m), Some (m_fver m)) /\
    lookup (zs "start time") ls = Some time /\ mdtimestr2nstime mode time = Ok (m_start m) /\
    read number (lookup (zs "number of samples") ls) = Some (m_cnt m) /\
    lookup (zs "sample rate (Hz)") ls = Some (hz (sampratehz (m_rate m))) /\
    read (natural 16) (read (after (zs "0x")) (lookup (zs "CRC") ls)) = Some (m_crc m) /\
    read number (read (before (zs " bytes")) (lookup (zs "extra header length") ls)) = Some (Z.of_nat (length (m_extra m))) /\
    read number (read (before (zs " bytes")) (lookup (zs "data payload length") ls)) = Some (m_datalen m) /\
    lookup (zs "payload encoding") ls = Some enc /\ read_encoding enc = Some (encodingstr (m_enc m mod 256), Some (m_enc m)) /\
    (if 1 <? details then read read_bits (lookup (zs "flags") ls) = Some (m_flags m) else lookup (zs "flags") ls = None).
Proof. exact details. Qed.
Print Assumptions C60_details.

(** From the second level on there is a line for exactly the bits that are set in the flags. *)
Theorem C60_flags : forall hz m details, header_fits m -> plain 20 (hz (sampratehz (m_rate m))) -> 0 < details ->
  details < 2 \/ m_extra m = [] ->
  exists out, msr_print hz m details = Ok out /\
    flat_map bit_named (tl (lines out)) = if 1 <? details then filter (Z.testbit (m_flags m)) [0; 1; 2; 3; 4; 5; 6; 7] else [].
Proof. exact explained. Qed.
Print Assumptions C60_flags.

(** The name of an encoding has the words that tell it apart; codes without a meaning are
    "Unknown". *)
Theorem C60_encodings : Forall (fun p => forall w, In w (snd p) -> mentions (encodingstr (fst p)) w) encoding_words /\
  forall e, ~ In e [0; 1; 2; 3; 4; 5; 10; 11; 12; 13; 14; 15; 16; 17; 18; 19; 30; 31; 32; 33] -> encodingstr e = zs "Unknown".
Proof. exact encodings_named. Qed.
Print Assumptions C60_encodings.

(** Integer samples: the numbers read in the lines are the samples, six in a line; a blank line
    ends a multiple of six.  With -d there is only the first line. *)
Theorem C60_integers : forall mode g8 g10 unpacked l, 0 < unpacked -> Forall (in_s 32) l -> Z.of_nat (length l) * 8 < 2 ^ 31 ->
  (exists out, show_samples mode g8 g10 false 105 unpacked (SInt l) = Ok out /\ ended out /\
     map (fun t => map number (words t)) (lines out) = map (map Some) (grouped (length l) 6 l) ++ (if (length l mod 6 =? 0)%nat then [[]] else [])) /\
  (exists out, show_samples mode g8 g10 true 105 unpacked (SInt l) = Ok out /\ ended out /\
     map (fun t => map number (words t)) (lines out) = [map Some (firstn 6 l)]).
Proof. exact integers. Qed.
Print Assumptions C60_integers.

(** Floating point samples likewise, with the texts "%10.8g" and "%10.10g" give. *)
Theorem C60_floats : forall mode g8 g10 unpacked stype s, 0 < unpacked -> stype = 102 \/ stype = 100 -> samples_len s * 8 < 2 ^ 31 ->
  let g := if stype =? 102 then g8 else g10 in
  Forall (fun v => padded 100 (g v)) (sample_list s) ->
  (exists out, show_samples mode g8 g10 false stype unpacked s = Ok out /\ ended out /\
     map words (lines out) = map (map (fun v => flush (g v))) (grouped (length (sample_list s)) 6 (sample_list s))
                             ++ (if (length (sample_list s) mod 6 =? 0)%nat then [[]] else [])) /\
  (exists out, show_samples mode g8 g10 true stype unpacked s = Ok out /\ ended out /\
     map words (lines out) = [map (fun v => flush (g v)) (firstn 6 (sample_list s))]).
Proof. exact floats. Qed.
Print Assumptions C60_floats.

(** A text is printed whole, in whatever pieces; it is followed by a newline but for lengths
    that are multiples of 199. *)
Theorem C60_text : forall mode g8 g10 first unpacked l, 0 < unpacked -> l <> [] -> ~ In 0 l -> Z.of_nat (length l) < 2 ^ 31 ->
  show_samples mode g8 g10 first 116 unpacked (SInt l)
  = Ok (zs "Text Data:" ++ [10] ++ l ++ (if Z.of_nat (length l) mod 199 =? 0 then [] else [10])).
Proof. exact texts. Qed.
Print Assumptions C60_text.

(** A record is its header followed by its samples if these are asked for and can be
    unpacked; its offset in the file stands in front in ten columns. *)
Theorem C60_record : forall mode hz g8 g10 offset details stype m s printdata h d, 0 <= offset < 10 ^ 9 ->
  msr_print hz m details = Ok h -> show_samples mode g8 g10 (printdata =? 1) stype (samples_len s) s = Ok d -> printdata <> 0 ->
  show_record mode hz g8 g10 None None details printdata stype m (Ok s) = Ok (h ++ d) /\
  show_record mode hz g8 g10 None None details printdata stype m (Err MS_GENERROR) = Ok h /\
  show_record mode hz g8 g10 None None details 0 stype m (Ok s) = Ok h /\
  exists o out, show_record mode hz g8 g10 (Some offset) None details printdata stype m (Ok s) = Ok out /\ out = o ++ h ++ d /\
    option_map (fun p => number (fst p)) (cut (zs " ") out) = Some (Some offset) /\ words o = [dec offset] /\ length o = 10%nat.
Proof. exact record_shown. Qed.
Print Assumptions C60_record.

(** *** A record for the examples *)
Definition hz1 (r : DblModel.dbl) : list Z := zs "100".
Definition shown : msr :=
  mk_msr 512 false false 3 5 (zs "FDSN:XX_STA__B_H_Z") 1709168523000000500 0x4059000000000000 11 2 3 0xDEADBEEF [] 128 None.
Lemma shown_fits : header_fits shown /\ plain 20 (hz1 (sampratehz (m_rate shown))).
Proof.
  split.
  - unfold header_fits, one_line, in_u, in_s. cbn.
    repeat split; try lia; intros C; repeat (destruct C as [C|C]; [discriminate|]); exact C.
  - split; [cbn; lia|]. split; [discriminate|]. cbn. repeat constructor; lia.
Qed.
Example C60_summary_instance : header_fits shown /\ plain 20 (hz1 (sampratehz (m_rate shown))) /\ 0 <= 0 /\
  msr_print hz1 shown 0 = Ok (zs "FDSN:XX_STA__B_H_Z, 2, 512, 3 samples, 100 Hz, 2024-02-29T01:02:03.000000500Z (060)" ++ [10]).
Proof. destruct shown_fits as (A & B). split; [exact A|]. split; [exact B|]. split; [lia|]. vm_compute. reflexivity. Qed.
Example C60_details_instance : header_fits shown /\ plain 20 (hz1 (sampratehz (m_rate shown))) /\ 0 < 1 /\
  msr_print hz1 shown 1
  = Ok (zs "FDSN:XX_STA__B_H_Z, version 2, 512 bytes (format: 3)" ++ [10]
        ++ zs "             start time: 2024-02-29T01:02:03.000000500Z (060)" ++ [10]
        ++ zs "      number of samples: 3" ++ [10] ++ zs "       sample rate (Hz): 100" ++ [10]
        ++ zs "                    CRC: 0xDEADBEEF" ++ [10] ++ zs "    extra header length: 0 bytes" ++ [10]
        ++ zs "    data payload length: 128 bytes" ++ [10]
        ++ zs "       payload encoding: STEIM-2 integer compression (val: 11)" ++ [10]).
Proof. destruct shown_fits as (A & B). split; [exact A|]. split; [exact B|]. split; [lia|]. vm_compute. reflexivity. Qed.
Example C60_flags_instance : header_fits shown /\ plain 20 (hz1 (sampratehz (m_rate shown))) /\ 0 < 2 /\ (2 < 2 \/ m_extra shown = []) /\
  filter (Z.testbit (m_flags shown)) [0; 1; 2; 3; 4; 5; 6; 7] = [0; 2].
Proof. destruct shown_fits as (A & B). split; [exact A|]. split; [exact B|]. split; [lia|]. split; [right; reflexivity|]. reflexivity. Qed.
Example C60_encodings_instance : In (11, [zs "STEIM-2"]) encoding_words /\ ~ In 99 [0; 1; 2; 3; 4; 5; 10; 11; 12; 13; 14; 15; 16; 17; 18; 19; 30; 31; 32; 33].
Proof. split; [cbn; tauto|]. intros C. repeat (destruct C as [C|C]; [discriminate|]). exact C. Qed.
Definition seven : list Z := [1; -2; 300; 0; 2147483647; -2147483648; 5].
Example C60_integers_instance : 0 < 7 /\ Forall (in_s 32) seven /\ Z.of_nat (length seven) * 8 < 2 ^ 31 /\
  show_samples Strict (fun _ => []) (fun _ => []) false 105 7 (SInt seven)
  = Ok (zs "         1          -2         300           0  2147483647  -2147483648  " ++ [10] ++ zs "         5  " ++ [10]).
Proof.
  split; [lia|]. split; [repeat constructor; unfold in_s; cbn; lia|]. split; [reflexivity|]. vm_compute. reflexivity.
Qed.
Definition fixed (v : sample) : list Z := zs "       1.5".
Example C60_floats_instance : 0 < 2 /\ (102 = 102 \/ 102 = 100) /\ samples_len (SInt [5; 6]) * 8 < 2 ^ 31 /\
  Forall (fun v => padded 100 (fixed v)) (sample_list (SInt [5; 6])) /\
  show_samples Strict fixed (fun _ => []) false 102 2 (SInt [5; 6]) = Ok (zs "       1.5         1.5  " ++ [10]).
Proof.
  split; [lia|]. split; [left; reflexivity|]. split; [reflexivity|]. split; [|vm_compute; reflexivity].
  assert (forall v, padded 100 (fixed v)) as F.
  { intros v. split; [cbn; lia|]. exists 7%nat, (zs "1.5"). split; [reflexivity|]. split; [discriminate|].
    cbn. repeat (apply Forall_cons; [lia|]). apply Forall_nil. }
  apply Forall_forall. intros v _. apply F.
Qed.
Example C60_text_instance : 0 < 5 /\ zs "Hello" <> [] /\ ~ In 0 (zs "Hello") /\
  show_samples Strict fixed fixed false 116 5 (SInt (zs "Hello")) = Ok (zs "Text Data:" ++ [10] ++ zs "Hello" ++ [10]).
Proof.
  split; [lia|]. split; [discriminate|]. split; [|vm_compute; reflexivity].
  intros C. cbn in C. repeat (destruct C as [C|C]; [discriminate|]). exact C.
Qed.
Example C60_record_instance : exists h, 0 <= 4096 < 10 ^ 9 /\ msr_print hz1 shown 0 = Ok h /\
  show_samples Strict fixed fixed (2 =? 1) 105 (samples_len (SInt [1; 2; 3])) (SInt [1; 2; 3]) = Ok (zs "         1           2           3  " ++ [10]) /\
  show_record Strict hz1 fixed fixed (Some 4096) None 0 2 105 shown (Ok (SInt [1; 2; 3]))
  = Ok (zs "4096      FDSN:XX_STA__B_H_Z, 2, 512, 3 samples, 100 Hz, 2024-02-29T01:02:03.000000500Z (060)" ++ [10]
        ++ zs "         1           2           3  " ++ [10]).
Proof. eexists. split; [lia|]. split; [vm_compute; reflexivity|]. split; vm_compute; reflexivity. Qed.

(** *** What does not hold *)

(** A text is not always ended by a newline: the last piece of 199 characters takes the
    newline with it, so what is printed next stands in the same line (msi.c:278-279: the
    newline is the two hundredth character). *)
Theorem C60_text_newline_refuted : exists l, l <> [] /\ Forall (fun c => 32 < c < 127) l /\
  exists out, show_samples Strict fixed fixed false 116 (Z.of_nat (length l)) (SInt l) = Ok out /\ ~ ended out.
Proof.
  exists (repeat 65 199). split; [discriminate|]. split.
  - apply Forall_forall. intros c C. apply repeat_spec in C. lia.
  - eexists. split; [vm_compute; reflexivity|]. vm_compute. discriminate.
Qed.
Print Assumptions C60_text_newline_refuted.

(** A text with a zero character is cut there, up to the end of the piece ("%.*s"): two texts
    are printed alike. *)
Theorem C60_text_nul_refuted : exists l l', length l = length l' /\ l <> l' /\
  exists out, show_samples Strict fixed fixed false 116 (Z.of_nat (length l)) (SInt l) = Ok out /\
    show_samples Strict fixed fixed false 116 (Z.of_nat (length l')) (SInt l') = Ok out.
Proof.
  exists (65 :: 0 :: [66]), (65 :: 0 :: [67]). split; [reflexivity|]. split; [discriminate|].
  eexists. split; vm_compute; reflexivity.
Qed.
Print Assumptions C60_text_nul_refuted.

(** An offset of ten digits or more is not separated from the identifier ("%-10lld"): a file
    longer than a gigabyte has records that cannot be told apart in the output. *)
Theorem C60_offset_refuted : exists p p' m m', p <> p' /\ m_sid m <> m_sid m' /\ header_fits m /\ header_fits m' /\
  exists out, show_record Strict hz1 fixed fixed (Some p) None 0 0 105 m (Err MS_GENERROR) = Ok out /\
    show_record Strict hz1 fixed fixed (Some p') None 0 0 105 m' (Err MS_GENERROR) = Ok out.
Proof.
  exists 12345678901, 1234567890, (mk_msr 512 false false 3 0 (zs "X") 0 0x4059000000000000 11 2 3 0 [] 128 None),
    (mk_msr 512 false false 3 0 (zs "1X") 0 0x4059000000000000 11 2 3 0 [] 128 None).
  split; [lia|]. split; [discriminate|].
  do 2 (split; [unfold header_fits, one_line, in_u, in_s; cbn;
    repeat split; try lia; intros C; repeat (destruct C as [C|C]; [discriminate|]); exact C|]).
  eexists. split; vm_compute; reflexivity.
Qed.
Print Assumptions C60_offset_refuted.
