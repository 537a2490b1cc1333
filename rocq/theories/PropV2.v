(** * C38: version 2 records with damaged blockette chains. *)

From Coq Require Import String.
From Verif Require Import Base BaseLemmas StrModel RecModel RecSpec DataSpec V2Model V2Spec V2Proof V2Total.
Open Scope Z_scope.

(** Detection and parsing end for every buffer, whatever the extra header functions do;
    the loops run at most once per byte of the buffer. *)
Theorem C38_terminates : forall J hb mode addr flags buf reclen, bytes_ok buf ->
  detect hb buf <> Fuel
  /\ unpack2 J hb mode addr flags buf reclen <> Fuel
  /\ (valid2_at 0 buf = Ok true -> parse (unpack2 J hb mode addr flags) hb mode addr flags buf <> Fuel).
Proof.
  exact (fun J hb mode addr flags buf reclen B =>
    conj (nf_detect hb buf B) (conj (nf_unpack2 J hb mode addr flags buf reclen B) (nf_parse J hb mode addr flags buf B))).
Qed.
Print Assumptions C38_terminates.

(** The search for the record length reads at most four bytes after the buffer, or the 48
    bytes of a header when the buffer is shorter. *)
Theorem C38_detect_extent : forall hb mem n, bytes_ok mem -> n + 4 <= lenZ mem -> 48 <= lenZ mem ->
  ends (fun u => u = BadShift) (detect_mem hb mem n).
Proof. exact detect_slack. Qed.
Print Assumptions C38_detect_extent.

(** Parsing the header of any version 2 record reads at most 193 bytes after the buffer. *)
Theorem C38_extent : forall J hb mode addr flags mem n, bytes_ok mem -> 0 <= n -> n + 193 <= lenZ mem ->
  valid2_at 0 mem = Ok true -> has_flag flags MSF_UNPACKDATA = false ->
  ends (no_outside_read mode) (parse_mem J hb mode addr flags mem n).
Proof. exact parse_slack. Qed.
Print Assumptions C38_extent.

(** The two functions above are those of the reader when nothing follows the buffer. *)
Theorem C38_extent_of : forall J hb mode addr flags buf,
  detect_mem hb buf (lenZ buf) = detect hb buf
  /\ parse_mem J hb mode addr flags buf (lenZ buf) = parse (unpack2 J hb mode addr flags) hb mode addr flags buf.
Proof. exact (fun J hb mode addr flags buf => conj (detect_mem_eq hb buf) (parse_mem_eq J hb mode addr flags buf)). Qed.
Print Assumptions C38_extent_of.

(** Nothing outside the buffer is read when each blockette the links lead to is in it. *)
Theorem C38_detect_partial : forall hb buf, bytes_ok buf -> 48 <= lenZ buf -> valid2_at 0 buf = Ok true ->
  record_chain (fun type => type = 1000) (search_ok buf (lenZ buf)) hb buf (lenZ buf + 1) ->
  exists reclen, detect hb buf = Ok (2, reclen).
Proof.
  exact (fun hb buf B L V => detect_chain (fun type => type = 1000) (search_ok buf (lenZ buf)) hb buf B L V
    (fun _ H => H) (fun _ _ _ H => H)).
Qed.
Print Assumptions C38_detect_partial.

Theorem C38_unpack_partial : forall J hb mode addr flags rec reclen,
  bytes_ok rec -> 48 <= lenZ rec -> reclen <= lenZ rec ->
  record_chain unknown_type (fun type off => blockette_ok rec (lenZ rec) type off
    /\ (has_flag flags MSF_UNPACKDATA = true -> length_ok hb addr rec type off)) hb rec reclen ->
  (has_flag flags MSF_UNPACKDATA = true -> samples_fit hb addr rec reclen (-1)) ->
  inside mode (unpack2 J hb mode addr flags rec reclen).
Proof.
  exact (fun J hb mode addr flags rec reclen B L R C F =>
    unpack2_chain unknown_type J hb mode addr flags rec reclen reclen (fun _ H => H) B L R (Z.le_refl _) F C).
Qed.
Print Assumptions C38_unpack_partial.

Theorem C38_parse_partial : forall J hb mode addr flags buf,
  bytes_ok buf -> 48 <= lenZ buf -> valid2_at 0 buf = Ok true ->
  record_chain nowhere (fun type off => blockette_ok buf (lenZ buf) type off
    /\ (has_flag flags MSF_UNPACKDATA = true -> length_ok hb addr buf type off)) hb buf (lenZ buf + 1) ->
  (has_flag flags MSF_UNPACKDATA = true -> forall reclen, detect hb buf = Ok (2, reclen) -> reclen <= lenZ buf ->
     samples_fit hb addr buf (if reclen =? 0 then lenZ buf else reclen) (-1)) ->
  inside mode (parse (unpack2 J hb mode addr flags) hb mode addr flags buf).
Proof. exact parse_chain. Qed.
Print Assumptions C38_parse_partial.

(** ** Examples *)

Definition be16 (v : Z) : list Z := [v / 256; v mod 256].
Definition fsdh (cnt doff boff : Z) : list Z :=
  chars "000001D AB     BHZXX" ++ be16 2020 ++ be16 32 ++ [10; 20; 30; 0; 0; 0] ++ be16 cnt ++ be16 1 ++ be16 1
  ++ [0; 0; 0; 1; 0; 0; 0; 0] ++ be16 doff ++ be16 boff.
Definition b1000 (next enc e : Z) : list Z := be16 1000 ++ be16 next ++ [enc; 1; e; 0].
Definition b1001 (next q us : Z) : list Z := be16 1001 ++ be16 next ++ [q; us; 0; 0].
Definition btime : list Z := be16 2020 ++ be16 32 ++ [10; 20; 30; 0; 0; 0].
Definition b200 (next : Z) (text : list Z) : list Z :=
  be16 200 ++ be16 next ++ repeat 0 14 ++ btime ++ text.
Definition b500 (next : Z) (type clock : list Z) : list Z :=
  be16 500 ++ be16 next ++ repeat 0 4 ++ btime ++ repeat 0 6 ++ type ++ repeat 0 32 ++ clock.
Definition pad (n : nat) (l : list Z) : list Z := l ++ repeat 0 (n - length l).
Definition J0 : json := mk_json (fun _ _ => false) (fun _ _ => []).
Definition parse0 (flags : Z) (buf : list Z) := parse (unpack2 J0 false Strict 0 flags) false Strict 0 flags buf.

(** Record length and encoding, timing, a detection, then two samples. *)
Definition good : list Z :=
  pad 128 (pad 120 (fsdh 2 120 48 ++ b1000 56 3 7 ++ b1001 64 99 5 ++ b200 0 (chars "STA/LTA                 ")) ++ [0; 0; 1; 2; 255; 255; 255; 254]).

Example C38_parse_instance :
  bytes_ok good /\ lenZ good = 128 /\ valid2_at 0 good = Ok true
  /\ record_chain nowhere (fun type off => blockette_ok good (lenZ good) type off
       /\ (has_flag 1 MSF_UNPACKDATA = true -> length_ok false 0 good type off)) false good (lenZ good + 1)
  /\ detect false good = Ok (2, 128) /\ samples_fit false 0 good 128 (-1)
  /\ exists m, parse0 1 good = Ok (PRec m) /\ m_reclen m = 128 /\ m_data m = Some (SInt [258; -2]).
Proof.
  split. { unfold bytes_ok. apply Forall_forall. intros x H. vm_compute in H. unfold byte_ok.
    repeat (destruct H as [<-|H]; [lia|]). destruct H. }
  split; [vm_compute; reflexivity|]. split; [vm_compute; reflexivity|]. split.
  { intros off E1. vm_compute in E1. injection E1 as <-. replace (swapped false good) with true by (vm_compute; reflexivity).
    eapply chain_link; [vm_compute; reflexivity|vm_compute; reflexivity| |right; right].
    { split. { split; [vm_compute; discriminate|]. split; [|discriminate]. intros _. exists 7. split; [vm_compute; reflexivity|lia]. }
      intros _ _. exists 7, 3. split; [vm_compute; reflexivity|]. split; [vm_compute; reflexivity|]. split; [vm_compute; discriminate|].
      intros doff cnt E2 E3. vm_compute in E2, E3. injection E2 as <-. injection E3 as <-. split; [lia|].
      intros w [= <-]. lia. }
    eapply chain_link; [vm_compute; reflexivity|vm_compute; reflexivity| |right; right].
    { split; [|discriminate]. split; [vm_compute; discriminate|]. split; discriminate. }
    eapply chain_link; [vm_compute; reflexivity|vm_compute; reflexivity| |left; lia].
    split; [|discriminate]. split; [vm_compute; discriminate|]. split; discriminate. }
  split; [vm_compute; reflexivity|]. split.
  { intros doff cnt E2 E3. vm_compute in E2, E3. injection E2 as <-. injection E3 as <-. split; [lia|]. discriminate. }
  eexists. split; [vm_compute; reflexivity|]. split; reflexivity.
Qed.

(** ** Where the claim fails *)

(** The bound of 193 is reached: a blockette 500 in the last eight bytes of a record is
    taken as eight bytes long and read as 200, and one more for the end of its text. *)
Theorem C38_extent_exact_refuted :
  exists mem, bytes_ok mem /\ lenZ mem = 128 + 192 /\ valid2_at 0 mem = Ok true
    /\ parse_mem J0 false Strict 0 0 mem 128 = UB OOBRead.
Proof.
  exists (pad 120 (fsdh 0 0 48 ++ b1000 120 3 7) ++ b500 0 (pad 16 (chars "Missing")) (repeat 65 128)).
  split. { unfold bytes_ok. apply Forall_forall. intros x H. vm_compute in H. unfold byte_ok.
    repeat (destruct H as [<-|H]; [lia|]). destruct H. }
  split; [vm_compute; reflexivity|]. split; vm_compute; reflexivity.
Qed.
Print Assumptions C38_extent_exact_refuted.

(** A blockette cut off by the end of the record is read beyond it; so is a link to the
    last bytes, and a text that fills the rest of the record. *)
Theorem C38_outside_refuted :
  parse0 0 (pad 120 (fsdh 0 0 48 ++ b1000 120 3 7) ++ firstn 8 (b500 0 [] [])) = UB OOBRead
  /\ parse0 0 (pad 128 (fsdh 0 0 48 ++ b1000 126 3 7)) = UB OOBRead
  /\ parse0 0 (pad 76 (fsdh 0 0 48 ++ b1000 76 3 7) ++ b200 0 (repeat 65 24)) = UB OOBRead.
Proof. repeat split; vm_compute; reflexivity. Qed.
Print Assumptions C38_outside_refuted.

(** A data offset beyond the record, and a second blockette 1000 with a larger length. *)
Theorem C38_data_refuted :
  parse0 1 (pad 128 (fsdh 2 192 48 ++ b1000 0 10 7)) = UB OOBRead
  /\ parse0 1 (pad 128 (fsdh 100 64 48 ++ b1000 56 3 7 ++ b1000 0 3 10)) = UB OOBRead.
Proof. split; vm_compute; reflexivity. Qed.
Print Assumptions C38_data_refuted.

(** Detection reads a header of 48 bytes in a buffer of 40, and a link to the end of the
    buffer leads outside. *)
Theorem C38_detect_refuted :
  detect false (firstn 40 (fsdh 0 0 48)) = UB OOBRead
  /\ detect false (fsdh 0 0 48) = UB OOBRead.
Proof. split; vm_compute; reflexivity. Qed.
Print Assumptions C38_detect_refuted.

(** Other undefined behaviour: the shift by the length exponent of a blockette 1000, and
    the terminator written after the two full text fields of a blockette 500. *)
Theorem C38_other_refuted :
  detect false (pad 128 (fsdh 0 0 48 ++ b1000 0 3 64)) = UB BadShift
  /\ parse0 0 (pad 128 (fsdh 0 0 48 ++ b1000 56 3 7 ++ b1000 0 3 32)) = UB BadShift
  /\ parse0 0 (pad 512 (fsdh 0 0 48 ++ b1000 56 3 9 ++ b500 0 (pad 0 (chars "Missing         ")) (repeat 32 128))) = UB OOBWrite.
Proof. repeat split; vm_compute; reflexivity. Qed.
Print Assumptions C38_other_refuted.
