(** * Packing version 2 records with extra headers (libmseed/pack.c).

    [pack2] of Pack2Model over the header of EhPackModel.  [rd] is the reader of the JSON text
    of the extra headers. *)

From Verif Require Import Base RecModel PackModel EhModel Pack2Model EhPackModel.
Open Scope Z_scope.

(** msr3_pack_mseed2, pack.c:590-839.  [alloc] is the content of the allocated record; the data
    offset of the Steim encodings is counted up in at most 2100 steps, more than a record of
    131072 bytes has frames (pack.c:685-695). *)
Definition pack2x (rd : list Z -> option jv) (fuel : nat) (nexttime : Z -> Z) (hb : bool) (mode : ovmode) (stack alloc : list Z)
           (m : msr) (type : Z) (src : list Z) (flags : Z) : res (list (list Z) * Z * bool) :=
  let reclen := if m_reclen m <? 0 then 4096 else m_reclen m in
  let encoding := uwrap 8 (if m_enc m <? 0 then 11 else m_enc m) in
  if (reclen <? 128) || (MAXRECLENv2 <? reclen) then Ok ([], 0, false)
  else if negb (Z.land reclen (reclen - 1) =? 0) then Ok ([], 0, false)
  else
    let buf := repeat 0 48 ++ skipn 48 (firstn (Z.to_nat reclen) alloc) in
    match pack_header2x rd hb mode stack reclen m buf with
    | UB u => UB u
    | Fuel => Fuel
    | Err _ => Ok ([], 0, false)
    | Ok (buf, headerlen) =>
      match src with
      | [] =>
        let! b := put 52 [0] buf in
        let! b := put headerlen (repeat 0 (Z.to_nat (reclen - headerlen))) b in
        Ok ([b], 0, true)
      | _ =>
        let size := samplesize type in
        if size =? 0 then Ok ([], 0, false)
        else
          let steim := (encoding =? 10) || (encoding =? 11) in
          let dataoffset := if steim then round64 2100 64 headerlen else headerlen in
          let! buf := (if steim then put headerlen (repeat 0 (Z.to_nat (dataoffset - headerlen))) buf else Ok buf) in
          let! buf := put 44 (be hb 2 dataoffset) buf in
          let maxdata := reclen - dataoffset in
          let maxsamples :=
            if encoding =? 10 then maxdata / 64 * 60
            else if encoding =? 11 then maxdata / 64 * 105
            else maxdata / size in
          pack_loop2 fuel hb mode nexttime encoding type src dataoffset maxdata maxsamples reclen
                     (has_flag flags MSF_FLUSHDATA) buf 0
      end
    end.
