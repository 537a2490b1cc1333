(** * The extra headers of a version 2 record (libmseed/unpack.c, libmseed/extraheaders.c).

    The requests of V2Model carried out by the routines of EhModel.  [rd] reads and [wr] writes
    JSON text. *)

From Coq Require Import String.
From Verif Require Import Base ConvModel EhModel V2Model.
Open Scope Z_scope.
Open Scope list_scope.

(** A character array with a text, as far as its terminator. *)
Definition cstring (t : list Z) : list Z := t ++ [0].
(** Units of 0.0001 as a double, unpack.c:404, 575, 613, 617, 669, 717. *)
Definition tenthousandths (v : Z) : Z := dbits (ddiv (dofz v) (dofz 10000)).

(** The structures filled in from blockettes, unpack.c:463-816: floats become doubles, the
    reference amplitude is an integer. *)
Definition entry_of (o : ehop) : option entry :=
  match o with
  | HDet d => Some (Detection (EhModel.mk_detection (cstring (chars (V2Model.d_type d))) (cstring (V2Model.d_detector d))
      (float_to_double (d_amp d)) (float_to_double (V2Model.d_period d)) (float_to_double (d_back d))
      (cstring (chars (V2Model.d_wave d))) (cstring (chars (V2Model.d_units d))) (V2Model.d_onset d) (V2Model.d_medsnr d)
      (V2Model.d_lookback d) (V2Model.d_pick d)))
  | HCal c => Some (Calibration (EhModel.mk_calibration (cstring (chars (V2Model.k_type c))) (V2Model.k_begin c) (V2Model.k_end c)
      (V2Model.k_steps c) (V2Model.k_first c) (k_alt c) (cstring (chars (V2Model.k_trigger c))) (V2Model.k_continued c)
      (float_to_double (k_amp c)) (cstring []) (cstring (chars (V2Model.k_range c))) (tenthousandths (V2Model.k_duration c))
      (tenthousandths (k_period c)) (tenthousandths (V2Model.k_between c)) (cstring (V2Model.k_channel c)) (dbits (dofz (k_ref c)))
      (cstring (V2Model.k_coupling c)) (cstring (V2Model.k_rolloff c)) (cstring (V2Model.k_noise c))))
  | HExc x => Some (Exception (mk_exception (V2Model.x_time x) (float_to_double (V2Model.x_vco x)) (V2Model.x_quality x)
      (V2Model.x_count x) (cstring (V2Model.x_type x)) (cstring (V2Model.x_status x))))
  | _ => None
  end.

(** One request with the parse state: the value returned and the state after it. *)
Definition request (rd : list Z -> option jv) (h : heads) (o : ehop) (st : option pstate) : res (Z * option pstate) :=
  let set (path : string) (g : given) := let '(rc, _, st') := set_ptr rd (fun _ => None) h (zs path) g true st in Ok (rc, st') in
  match o with
  | HBool p => set p (SetBool 1)
  | HInt p v => set p (SetInt v)
  | HNum p v => set p (SetNum (tenthousandths v))
  | HStr p s => set p (SetText s)
  | _ =>
    match entry_of o with
    | Some e => let! (rc, _, st') := add_entry rd (fun _ => None) h None e true st in Ok (rc, st')
    | None => Err MS_GENERROR
    end
  end.
Fixpoint requests (rd : list Z -> option jv) (h : heads) (os : list ehop) (rc : Z) (st : option pstate) : res (Z * option pstate) :=
  match os with
  | [] => Ok (rc, st)
  | o :: os' => let! (rc, st1) := request rd h o st in requests rd h os' rc st1
  end.

(** msr->extra and msr->extralength before the first request, unpack.c:842-856. *)
Definition heads_of (text : option (list Z)) : heads :=
  match text with Some t => mk_heads (Some t) (Z.of_nat (List.length t)) | None => mk_heads None 0 end.
(** All requests, and mseh_serialize at the end, unpack.c:901. *)
Definition eh_fail (rd : list Z -> option jv) (text : option (list Z)) (os : list ehop) : bool :=
  match requests rd (heads_of text) os 0 None with Ok (rc, _) => negb (rc =? 0) | _ => true end.
Definition eh_text (rd : list Z -> option jv) (wr : jv -> option (list Z)) (text : option (list Z)) (os : list ehop) : list Z :=
  match requests rd (heads_of text) os 0 None with
  | Ok (_, st) => match e_text (snd (serialize wr (heads_of text) st)) with Some t => t | None => [] end
  | _ => []
  end.
Definition eh_json (rd : list Z -> option jv) (wr : jv -> option (list Z)) : json := mk_json (eh_fail rd) (eh_text rd wr).
