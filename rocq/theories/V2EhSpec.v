(** * What document the extra headers of a version 2 record are. *)

From Coq Require Import String.
From Verif Require Export EhSpec V2RecSpec V2EhModel EhPackSpec.
Open Scope Z_scope.
Open Scope list_scope.

(** The paths of single values, and of the lists of entries. *)
Definition value_paths : list (list string) :=
  map snd switches ++ [fdsn "Time" "LeapSecond"; fdsn "Time" "Quality"; fdsn "Time" "Correction"; fdsn "Clock" "Model"].
Definition entry_paths : list (list string) :=
  [fdsn "Event" "Detection"; fdsn "Calibration" "Sequence"; fdsn "Time" "Exception"].

(** The text of a path. *)
Definition path_text (ks : list string) : list Z := written (map zs ks).

(** The value a request puts at a path. *)
Inductive puts : ehop -> list string -> jv -> Prop :=
| pu_bool p ks : zs p = path_text ks -> puts (HBool p) ks (JBool true)
| pu_int p ks v : zs p = path_text ks -> puts (HInt p v) ks (JInt v)
| pu_num p ks v : zs p = path_text ks -> puts (HNum p v) ks (JReal (tenthousandths v))
| pu_str p ks s : zs p = path_text ks -> puts (HStr p s) ks (JStr s).
(** The value of the last request for a path. *)
Definition last_put (os : list ehop) (ks : list string) (v : jv) : Prop :=
  exists a o b, os = a ++ o :: b /\ puts o ks v /\ Forall (fun o => forall w, ~ puts o ks w) b.
(** The path of a request for an entry, and the members of the entry it makes: texts as far as
    their terminator, floats as doubles with their value, units of 0.0001, whole numbers. *)
Definition goes_to (o : ehop) : option (list string) :=
  match o with
  | HDet _ => Some (fdsn "Event" "Detection")
  | HCal _ => Some (fdsn "Calibration" "Sequence")
  | HExc _ => Some (fdsn "Time" "Exception")
  | _ => None
  end.
Definition text_member (t : list Z) : jv -> Prop := EhSpec.text_field (t ++ [0]).
Definition name_member (s : string) : jv -> Prop := text_member (chars s).
Definition float_member (f : Z) : jv -> Prop := real_field (ConvModel.float_to_double f).
Definition members_of (o : ehop) : list (string * (jv -> Prop)) :=
  match o with
  | HDet (V2Model.mk_detection type detector amp period back wave units onset medsnr lookback pick) =>
    [("Type", name_member type); ("SignalAmplitude", float_member amp); ("SignalPeriod", float_member period);
     ("BackgroundEstimate", float_member back); ("Wave", name_member wave); ("Units", name_member units);
     ("OnsetTime", time_field onset); ("MEDSNR", snr_field medsnr); ("MEDLookback", int_field lookback);
     ("MEDPickAlgorithm", int_field pick); ("Detector", text_member detector)]
  | HCal (V2Model.mk_calibration type start stop steps first alternate trigger continued amp range duration sine between channel ref coupling rolloff noise) =>
    [("Type", name_member type); ("BeginTime", time_field start); ("EndTime", time_field stop); ("Steps", int_field steps);
     ("StepFirstPulsePositive", bool_field first); ("StepAlternateSign", bool_field alternate); ("Trigger", name_member trigger);
     ("Continued", bool_field continued); ("Amplitude", float_member amp); ("AmplitudeRange", name_member range);
     ("Duration", real_field (tenthousandths duration)); ("SinePeriod", real_field (tenthousandths sine));
     ("StepBetween", real_field (tenthousandths between)); ("InputChannel", text_member channel);
     ("ReferenceAmplitude", real_field (dbits (dofz ref))); ("Coupling", text_member coupling);
     ("Rolloff", text_member rolloff); ("Noise", text_member noise)]
  | HExc (mk_timing time vco quality count type status) =>
    [("Time", time_field time); ("VCOCorrection", vco_field (ConvModel.float_to_double vco)); ("ReceptionQuality", int_field quality);
     ("Count", fun v => v = JInt count /\ 0 < count); ("Type", text_member type); ("ClockStatus", text_member status)]
  | _ => []
  end%string.

(** The requests for entries at a path. *)
Definition entry_at (ks : list string) (o : ehop) : bool :=
  match goes_to o with Some p => if list_eq_dec (list_eq_dec Z.eq_dec) (map zs p) (map zs ks) then true else false | None => false end.
Definition entered (o : ehop) (v : jv) : Prop :=
  exists l, v = JObj l /\ NoDup (map fst l) /\
    (forall k w, In (k, w) l <-> exists name P, In (name, P) (members_of o) /\ k = zs name /\ P w).

(** A request for one of the values or an entry that can be written. *)
Definition good_request (o : ehop) : Prop :=
  (exists ks v, In ks value_paths /\ puts o ks v) \/ (exists e, entry_of o = Some e /\ ready e).

(** The document of requests made after a text that states a timing quality, or after none:
    the last value put at each path, in each list the entries in order of their requests, and
    nothing beside these paths. *)
Definition document_of (quality : option Z) (os : list ehop) (j : jv) : Prop :=
  (forall ks v, In ks value_paths -> (at_ j ks v <->
     last_put os ks v \/ (ks = fdsn "Time" "Quality" /\ (forall w, ~ last_put os ks w) /\ exists q, quality = Some q /\ v = JInt q))) /\
  (forall ks, In ks entry_paths -> exists l, Forall2 entered (filter (entry_at ks) os) l /\ forall v, at_ j ks v <-> l <> [] /\ v = JArr l) /\
  (forall qs w, Forall (fun ks => apart (map zs ks) qs) (value_paths ++ entry_paths) -> ~ at_path j qs w).

(** The reader reads the text of a timing quality. *)
Definition quality_of (q : Z) : jv := JObj [(zs "FDSN", JObj [(zs "Time", JObj [(zs "Quality", JInt q)])])].
Definition reads_quality (rd : list Z -> option jv) : Prop := forall q, 0 <= q <= 255 -> rd (quality_doc q) = Some (quality_of q).

(** The text a record starts from. *)
Definition text_of_quality (quality : option Z) : option (list Z) := match quality with Some q => Some (quality_doc q) | None => None end.

(** The values a record states: those of bits of the fixed header, the time correction and
    the last timing quality and clock model of the chain. *)
Definition said (b : bool) (v : jv) : option jv := if b then Some v else None.
Definition record_values (h : hdr2) (bs : list (blk * list Z)) : list (list string * option jv) :=
  [(fdsn "Event" "Begin", said (bit (f_act h) 2) (JBool true)); (fdsn "Event" "End", said (bit (f_act h) 3) (JBool true));
   (fdsn "Event" "InProgress", said (bit (f_act h) 6) (JBool true));
   (fdsn "Flags" "StationVolumeParityError", said (bit (f_io h) 0) (JBool true));
   (fdsn "Flags" "LongRecordRead", said (bit (f_io h) 1) (JBool true));
   (fdsn "Flags" "ShortRecordRead", said (bit (f_io h) 2) (JBool true));
   (fdsn "Flags" "StartOfTimeSeries", said (bit (f_io h) 3) (JBool true));
   (fdsn "Flags" "EndOfTimeSeries", said (bit (f_io h) 4) (JBool true));
   (fdsn "Flags" "AmplifierSaturation", said (bit (f_dq h) 0) (JBool true));
   (fdsn "Flags" "DigitizerClipping", said (bit (f_dq h) 1) (JBool true));
   (fdsn "Flags" "Spikes", said (bit (f_dq h) 2) (JBool true)); (fdsn "Flags" "Glitches", said (bit (f_dq h) 3) (JBool true));
   (fdsn "Flags" "MissingData", said (bit (f_dq h) 4) (JBool true));
   (fdsn "Flags" "TelemetrySyncError", said (bit (f_dq h) 5) (JBool true));
   (fdsn "Flags" "FilterCharging", said (bit (f_dq h) 6) (JBool true));
   (fdsn "Time" "LeapSecond", if bit (f_act h) 5 then Some (JInt (-1)) else said (bit (f_act h) 4) (JInt 1));
   (fdsn "Time" "Correction", said (negb (f_corr h =? 0)%Z) (JReal (tenthousandths (f_corr h))));
   (fdsn "Time" "Quality", last_of (fun b => match b with B1001 q _ _ _ => Some (JInt q) | _ => None end) bs);
   (fdsn "Clock" "Model", last_of (fun b => match b with B500 _ _ _ _ _ _ model _ => Some (JStr (l_text model)) | _ => None end) bs)]%string.

(** The document of a record: these values, an entry for each blockette of an event,
    calibration or timing exception, and nothing else. *)
Definition record_document (h : hdr2) (bs : list (blk * list Z)) (j : jv) : Prop :=
  (forall ks o v, In (ks, o) (record_values h bs) -> (at_ j ks v <-> o = Some v)) /\
  (forall ks, In ks entry_paths -> exists l, Forall2 entered (flat_map (fun p => filter (entry_at ks) (blk_ops (fst p))) bs) l /\
     forall v, at_ j ks v <-> l <> [] /\ v = JArr l) /\
  (forall qs w, Forall (fun ks => apart (map zs ks) qs) (value_paths ++ entry_paths) -> ~ at_path j qs w).

(** A record states something. *)
Definition states_headers (h : hdr2) (bs : list (blk * list Z)) : Prop :=
  flag_ops h <> [] \/ Exists (fun p => blk_ops (fst p) <> []) bs.

(** The text of a document as extra headers: a record that states nothing but perhaps a
    timing quality has no text or that of the quality, otherwise it is what [wr] writes;
    if that fails or is too long, only a timing quality that was stated first is kept. *)
Definition bare_text (x : list Z) : Prop := x = [] \/ exists q, 0 <= q <= 255 /\ x = quality_doc q.
Definition headers_text (rd : list Z -> option jv) (wr : jv -> option (list Z)) (h : hdr2) (bs : list (blk * list Z)) (j : jv) (x : list Z) : Prop :=
  (~ states_headers h bs -> (x = [] /\ j = JObj []) \/ (exists q, 0 <= q <= 255 /\ x = quality_doc q /\ rd x = Some j)) /\
  (states_headers h bs ->
    (forall t, wr j = Some t -> (Z.of_nat (List.length t) <= 65535 -> x = t) /\ (65535 < Z.of_nat (List.length t) -> bare_text x)) /\
    (wr j = None -> bare_text x)).
