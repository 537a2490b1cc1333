(** * C65: a document packed as version 2 and read back *)

From Coq Require Import String QArith.
From Verif Require Import Base BaseLemmas RecModel RecSpec PackModel PackSpec ConvSpec EhModel EhSpec EhProof V2Model V2RecSpec V2RecParse Pack2Model Pack2Spec Pack2Rate
  EhPackModel EhPackSpec EhPackHdr EhPackRead V2EhModel V2EhSpec V2EhWhole V2EhPack PropV2Eh PropEhPack.
Open Scope Z_scope.
Open Scope list_scope.

(** A header packed from a document reads back, on any host, with the document of its bits and
    blockettes: its members that are true are those that were, and the leap second has the
    sign it had. *)
Theorem C65_packed : forall rd rd2 wr hb hb2 mode m2 addr pf stack R m k f mu j, reads_quality rd2 ->
  sendable m k -> (64 <= List.length stack)%nat -> lenZ R = maxlen m - 48 -> bytes_ok R -> in_u 8 (encoding_of m) ->
  doc_of rd m j -> document_ok j -> document_kept j -> genfactmult mode (sampratehz (m_rate m)) = Ok (f, mu) -> dated hb2 (m_start m) ->
  exists h e w bs, 7 <= e <= 17 /\ maxlen m = 2 ^ e /\ header_says j m k f mu h /\ blockettes_say j (encoding_of m) e (micros (m_start m)) w bs /\
    (header_size bs < maxlen m -> header_size bs < 65536 ->
     exists r m' j2, pack_header2x rd hb mode stack (maxlen m) m (repeat 0 48 ++ R) = Ok (r, header_size bs) /\
       parse (unpack2 (eh_json rd2 wr) hb2 m2 addr pf) hb2 m2 addr pf r = Ok (PRec m') /\
       record_document h bs j2 /\ headers_text rd2 wr h bs j2 (m_extra m') /\
       Forall (fun s : string * list string => at_ j2 (snd s) (JBool true) <-> is_set j (snd s)) switches /\
       (at_ j2 (fdsn "Time" "LeapSecond") (JInt (-1)) <-> exists b, has_number j (fdsn "Time" "LeapSecond") b /\ negative b) /\
       ((exists b, has_number j (fdsn "Time" "LeapSecond") b /\ positive b) -> ~ (exists b, has_number j (fdsn "Time" "LeapSecond") b /\ negative b) ->
        at_ j2 (fdsn "Time" "LeapSecond") (JInt 1))).
Proof. exact packed_back. Qed.
Print Assumptions C65_packed.

(** ** Cases *)

(** A writer that writes 1 for each of these members that is there: the beginning of an event,
    its end, spikes, a positive leap second and a timing quality of 90. *)
Definition wr5 (j : jv) : option (list Z) :=
  Some (map (fun p => match look j (map zs (fst p)), snd p with
                      | Some (JBool true), None => 1
                      | Some (JInt i), Some n => if i =? n then 1 else 0
                      | _, _ => 0
                      end)
          [(fdsn "Event" "Begin", None); (fdsn "Event" "End", None); (fdsn "Flags" "Spikes", None);
           (fdsn "Time" "LeapSecond", Some 1); (fdsn "Time" "Quality", Some 90)]).

(** The document of C63_instance. *)
Example C65_packed_instance :
  reads_quality rdq /\ sendable (mx 256 [1]) kx /\ doc_of (rdx docx) (mx 256 [1]) docx /\ document_ok docx /\ document_kept docx /\
  genfactmult Strict (sampratehz (m_rate (mx 256 [1]))) = Ok (3, 1) /\
  exists r m', packed 256 docx = Ok (r, 132) /\ parse (unpack2 (eh_json rdq wr5) true Strict 0 0) true Strict 0 0 r = Ok (PRec m') /\
    m_extra m' = [1; 0; 1; 1; 1].
Proof.
  destruct C63_instance as (S & D & O & K & G & _). split; [exact rdq_ok|]. split; [exact S|]. split; [exact D|]. split; [exact O|]. split; [exact K|]. split; [exact G|].
  eexists _, _. split; [vm_compute; reflexivity|]. split; [vm_compute; reflexivity|]. vm_compute. reflexivity.
Qed.
