# Formal model of msi / libmseed in Rocq (Coq 8.16.1)

The code under study is C: `src/msi.c` (the command line inspector) and the
bundled `libmseed/` library in /repo.  Nothing is compiled or run; every
definition of the model cites the file and lines it transcribes.

## Conventions

* Machine integers are `Z`.  A C operation whose wrap-around or overflow can
  matter is written with an explicit `wrap`; signed overflow, out-of-bounds
  access, oversized shifts and NULL dereference are the distinct outcome `UB`.
  API errors are the outcome `Err code`.
* Bytes are `Z` in `0..255`; buffers are lists of bytes.  A read outside the
  buffer is `UB`, never a default value.
* Floating point *samples* are only copied and byte-swapped by the code, so they
  are modelled as their 32/64-bit patterns.  Floating point *arithmetic* (sample
  rates, tolerances) is rational arithmetic with each result rounded to binary64,
  nearest, ties to even (`FloatOps.v`, `DblModel.v`); conversions of sample types
  work on bit patterns (`ConvModel.v`).
* Loops are structural recursion or explicit fuel; running out of fuel is a
  distinct outcome and theorems exclude it by proof.
* External behaviour (file contents, read sizes, random numbers) is a universally
  quantified argument of the theorem, never an axiom.

## Files

* `Base.v` outcomes, C integer helpers, byte (de)serialisation and its lemmas.
* `*Model.v` transcriptions of the code; no proofs.
* `*Spec.v` small independent specifications.
* `*Proof.v` lemmas.
* `Prop*.v` only the property theorems (each `exact lemma`, followed by
  `Print Assumptions`), refutations with their witnesses, and `Example`s of
  non-trivial cases that meet the hypotheses.
* Other files (`V2Rate.v`, `Pack2Hdr.v`, `FactRoot.v`, ...) hold lemmas of a
  development that is split over several files.

## Plan, property by property

| id | modelled | proof |
|----|----------|-------|
| C01 | `msr_encode_steim1`, `msr_decode_steim1` word by word, frames as lists of 32-bit words and as bytes | induction over the encoder loop: the decoder run on a frame prefix yields the prefix of samples |
| C02 | same for Steim-2 | same; bit-field lemmas for 30/15/10/8/6/5/4-bit packing |
| C03 | decoders with explicit bounds checks (`UB` outcome) | no-UB by induction, for all byte strings |
| C04 | encoders/decoders of the fixed-width encodings | byte-order round-trip lemmas, list induction |
| C05 | the legacy decoders | finite sweep over words lifted with `forallb_forall`, list induction |
| C06 | `ms_crc32c` with its table and alignment as an argument | table equality by computation; slicing lemmas by linearity over xor |
| C07 | same | linearity and invertibility of the one-bit step |
| C08, C09 | `ms_nstime2time`, `ms_time2nstime_int`, `ms_gmtime64_r` | arithmetic, 400-year cycle |
| C10 | `ms_doy2md`, `ms_md2doy` | sweep over leap/common years lifted to all years |
| C11 | time formatting and parsing as character functions | round trip of decimal printing/parsing |
| C12, C13, C14 | string functions over char lists with explicit terminators | list induction |
| C15, C16 | `my_globmatch`, `ms_globmatch` with fuel | declarative pattern syntax and matching relation, equivalence; refutation for `\c` in the library version |
| C17 | `ms3_matchselect`, `ms3_addselect` | list induction |
| C18, C19 | main loop of `msi.c` over an abstract stream of records | fold characterisation |
| C20, C21 | `addlistfile`, `getoptval` | list induction |
| C22, C23 | `ms3_detect`, `msr3_parse` for version 3 | direct; `uint32_t` wrap refutation |
| C24 | `msr3_pack_header3`, `msr3_unpack_mseed3` | field by field byte lemmas |
| C25, C26, C27 | packing loop over the codecs | loop invariant |
| C28-C31 | `mstl3_addmsr_recordptr` over lists of segments | invariant by induction over added records |
| C32 | `IS_SAMPRATE_SIMILAR` | refutation of the user-tolerance branch |
| C33 | `mstl3_printgaplist` | list induction |
| C34-C36 | reader state machine with a schedule of read sizes | invariant relating buffer to file offset |
| C37 | log registry | invariant over operations; refutation of buffer safety |
| C38 | `ms3_detect`, `msr3_unpack_mseed2` chain walk | termination by increasing offsets; refutations of bounds |
| C39 | `msr3_data_bounds`, `ms_decode_data` | refutation for fixed-width encodings, positive theorem under size guard |
| C40 | `mstl3_convertsamples` | refutation for negatives, positive guarded theorem |
| C41 | `ms_sampletime` | case analysis |
| C42 | `msr3_repack_mseed3` | refutation of the buffer check, guarded round trip |
| C43 | `msr3_unpack_mseed2`, `ms3_detect`, `msr3_parse` on version 2 records | layout function from header fields and a blockette list, induction over the chain |
| C44 | `msr3_pack_mseed2`, `msr3_pack_header2` (no extra headers) | the buffer equals the layout of C43 after every step, then C43 and the decoders |
| C45 | `ms_genfactmult`, `ms_reduce_rate`, `ms_ratapprox`, `ms_rsqrt64` | error of the first approximation bounded on the bit pattern (a cubic in the fraction), Newton steps with rounding, then an invariant of the search for factors |
| C46 | `ms_readleapsecondfile`, `ms_readleapseconds` | lines of a file as in C20, scanning of numbers |
| C47 | `mstl3_printtracelist` | induction over the chain of segments; C33 for the gaps, C11 for the times |
| C48 | `mstl3_printsynclist` | list induction; C12 for the codes |
| C49 | `ms_timestr2nstime`, `ms_mdtimestr2nstime`, `ms_seedtimestr2nstime` | grammar of hand-written dates; C11 for the conversion |
| C50 | `ms3_readselectionsfile`, `ms3_addselect_comp` | lines of a file as in C46; C49 for the dates, C13 for the patterns, C17 for what is selected |
| C51 | `mstl3_pack` | paths through linked nodes never return, so each step changes one segment; C24, C26 and C44 for the records |
| C52, C53 | `ms_parse_raw3`, `mseh_print`, `ms_parse_raw2` | the values of the fields in the record, a relation for the blockettes met; the loop leaves an invariant for every link; refutations by records |
| C54, C55 | `mstl3_readbuffer_selection`, `mstl3_unpack_recordlist` | a buffer as the records it is made of (C35's vocabulary) and the list that adding these gives; induction over the records; record list entries as places of records that `msr3_unpack_data` decodes; a simulation between lists with and without samples |
| C56 | `ms3_readtracelist_selection`, the names of `msio_fopen` | a file system as a map from names to contents; the loop as the reader of C34-C36 followed by the additions of C28; entries as places in the file of the path |
| C57 | `mstl3_writemseed`, `msr3_writemseed`, `ms_record_handler_int` | the records of the packer (C25, C51) as the readable records of C35, so that the theorems on reading apply to the file written |
| C58 | `mstl3_addmsr_recordptr`, `mstl3_findID`, `mstl3_addID` | the invariant of C28-C31 for every entry: its records are of one channel and no two of its groups could be joined; in the end the groups are the stretches |
| C59 | all of the functions of C51, C57, C35, C56 and C58 | the records of a segment (C57) start and end within rounding of their samples' times, so they tile it up to about a microsecond; with C58 the channels are recovered, and their order is that of the entries |
| C60 | `msr3_print`, `ms_encodingstr`, the printing of samples and offsets in `msi.c` | a reader of the output: lines, fields, words and numbers are read in the text and compared with the record; refutations by texts and offsets |
| C61 | `main` of `msi.c` from the paths to the outputs | what the files hold and what passes the filters determine all outputs; run twice (the copy made by -o); stop at a path without a file; refutation of the count of files |
| C62 | `mseh_get_ptr_r`, `mseh_set_ptr_r`, `mseh_add_*_r`, `mseh_serialize`, `mseh_replace` and the parts of yyjson they use | documents are trees; values at paths (RFC 6901) and merge patches (RFC 7386) are specified without pointers' text or walks; a state that is kept is a document, related to the two forms of the code by an invariant |
| C63 | `msr3_pack_header2` with extra headers, `ms_timestr2btime`, `msr3_unpack_mseed2` | the document says which bits and blockettes the header has, in terms of its paths (EhSpec), the record layout (V2RecSpec) and dates (DateSpec); the state of the packer is a header with a chain whose last link is open; reading back is by C43's layout theorem |
| C64 | `msr3_pack_mseed2` with extra headers, `msr3_parse`, `msr3_unpack_mseed2` | the header of C63 with start, number of samples and data offset of each record (`with_data`); the loop keeps a header with its chain before the data; reading back is by the layout theorem of C43 and the payload of C44; refutation by compressed data behind a blockette of zeros |
| C65 | `msr3_unpack_mseed2` with `mseh_set_ptr_r`, `mseh_add_*_r`, `mseh_serialize` | the requests of C43 carried out by the routines of C62; the objects on the way to each path stay objects, so every request succeeds; induction over the requests with the last value and the entries per path; a reader that never refuses and one that watches for refusals give the record of C43; packing (C63) and then reading keeps the switches and the leap second |
| C66 | `msr3_resize_buffer`, `mstl3_resize_buffers` | the size needed does not wrap when the samples fit; induction over segments and identifiers with the number of requests so far |

## Trusted base

### Logic

* The Coq 8.16.1 kernel (with the VM for `vm_compute`; `coqchk` rechecks the
  compiled files without it).
* `Print Assumptions` stands beneath every theorem of the `Prop*.v` files.  It
  reports "Closed under the global context" for all of them: no theorem depends on
  an axiom, not even one of the standard library.  Libraries that are loaded for
  their tactics and for rational numbers bring axioms of the standard library into
  the environment (those of the real numbers, functional extensionality); `coqchk`
  lists them as loaded, no theorem uses them.
* There are no axioms, section-less variables, admitted proofs, functors, module
  types or plugins in the development, and no kernel check is switched off.

### What is modelled

The fidelity of the transcription is trusted.  Each definition cites the lines it
transcribes.

| model | code |
|-------|------|
| `SteimModel.v`, `CodecModel.v` | `packdata.c` and `unpackdata.c`: all encoders and decoders, text decoding of `unpack.c` |
| `CrcModel.v` | `crc32c.c` |
| `TimeModel.v`, `TimeStrModel.v` | `gmtime64.c` and the conversions between times, dates and strings in `genutils.c` |
| `StrModel.v` | identifiers and string copies in `genutils.c` |
| `GlobModel.v`, `SelModel.v`, `SelFileModel.v` | both glob matchers, selection lists and files (`selection.c`) |
| `RecModel.v`, `PackModel.v` | version 3: `ms3_detect`, `msr3_parse`, `msr3_unpack_mseed3`, `msr3_unpack_data`, `msr3_data_bounds`, `ms_decode_data`, `msr3_pack`, `msr3_pack_header3`, `msr_pack_data`, `msr3_repack_mseed3` |
| `V2Model.v`, `Pack2Model.v` | version 2: `msr3_unpack_mseed2`, `msr3_pack_mseed2`, `msr3_pack_header2` without extra headers, `ms_genfactmult` and its parts |
| `SampleModel.v`, `LeapModel.v` | `ms_sampletime`, `msr3_endtime`, `msr3_sampratehz`, leap second lists and files |
| `TlModel.v`, `GapModel.v`, `ListModel.v`, `ConvModel.v` | `tracelist.c`: adding records, healing, gap list, trace list, SYNC list, conversion of sample types |
| `TlPackModel.v` | `mstl3_pack` |
| `ReadModel.v` | `fileutils.c`: `ms3_readmsr_selection` and the buffer handling |
| `LogModel.v` | `logging.c` |
| `RawModel.v` | `parseutils.c`: `ms_parse_raw3`, `ms_parse_raw2`; `mseh_print` of `extraheaders.c` |
| `EhModel.v` | `extraheaders.c` but `mseh_print` and the wrappers without a state; of `yyjson.c`: JSON Pointer, merge patch |
| `EhPackModel.v` | `msr3_pack_header2` for records with extra headers and `ms_timestr2btime` (`pack.c`); a blockette is computed and written as a whole, log messages and the release of the document are left out |
| `EhPack2Model.v` | `msr3_pack_mseed2` for records with extra headers (`pack.c`), on the header of `EhPackModel.v`; the search for the offset of compressed data has a fuel that suffices for every header |
| `V2EhModel.v` | the calls of `mseh_` functions in `msr3_unpack_mseed2` (`unpack.c`): the structures filled in from blockettes, the requests in order, serializing at the end |
| `ResizeModel.v` | `msr3_resize_buffer` (`msrutils.c`), `mstl3_resize_buffers` (`tracelist.c`): the buffers as their bytes, each request to the allocator granted or not by an argument; the log message is left out |
| `ShowModel.v` | `msr3_print`, `ms_encodingstr`, `ms_samplesize`; the printing of a record in `msi.c` |
| `MainModel.v` | the loops of `main` in `msi.c` joined with the reader, the unpacking of samples, the printing and the trace list |
| `BufModel.v` | `tracelist.c`: `mstl3_readbuffer_selection`, `mstl3_unpack_recordlist` |
| `FileModel.v` | `fileutils.c`: `ms3_readtracelist_selection`, `ms3_readtracelist_timewin`, `mstl3_writemseed`, `msr3_writemseed`, `ms_record_handler_int`; `msio.c`: names in `msio_fopen` |
| `CliModel.v` | `msi.c`: argument values, list files, the main loop |

### What is not modelled, and simplifications

* General.  Allocation succeeds unless a model says otherwise.  Log messages are left
  out except in `LogModel.v`.  `char` is a byte.  Right shifts of negative numbers are
  arithmetic.  NULL arguments are not considered where a function tests for them
  first.  Library functions (`memcpy`, `strtol`, `sscanf`, `snprintf`, `fread`) are
  modelled by what the C standard says of the calls made.
* Doubles.  No excess precision (`FLT_EVAL_METHOD` 0) and no contraction of products
  and sums; the sign of zero is not represented in `DblModel.v`.  An infinity from a
  division by zero has the sign of the dividend.
* Packing, version 3.  The time of the next record and the reciprocal of a rate are
  arguments (`nexttime`, `recip`); C26 and C44 instantiate `nexttime`.
* Repacking.  Source and destination do not overlap; unaligned writes of fields are
  not tracked.
* Unpacking of data.  Where the alignment of the record matters its address modulo 8
  is an argument; otherwise unaligned reads of fields are not tracked.
* Version 2, parsing.  Extra headers are the list of requests made to the `mseh_`
  functions, what these produce is an argument (`json`), which C65 instantiates with the
  routines of `EhModel.v`; checks that only lead to log messages are left out.  `unpack2` is an argument of `parse` and of the reader.
* Version 2, packing.  C44 is for records without extra headers; the header with extra
  headers is C63 and the records with it are C64.  Bit fields set by successive `|=` are
  written once.
* Identifiers.  `ms_nslc2sid` counts the characters it needs in an int, whose overflow
  for strings of 2 GB is ignored.
* Conversion of sample types.  Little-endian host.  A segment is a memory of 32-bit
  words.  Signalling NaNs become quiet as the hardware does it.
* Trace list.  Each trace identifier has a heap of its own for its segments; the
  record list of a segment is a list; the number of samples is the length of the data;
  private pointers are left out; the state after a failed addition is not modelled.
* Gap list.  A line is the values it is printed from; `%f` and `%g` and the number of
  gaps printed at the end are not characters.
* Packing a trace list.  The counts of records and samples are not wrapped; memory
  allocated by the packer holds the same bytes at every call of it; a sample array is a
  list, whose reallocation leaves no trace.
* Reader.  The sizes returned by reads are a universally quantified schedule.
  Positions in a stream are not wrapped.  URLs are not modelled;
  failing `fopen` and the prefix "file://" are, for trace lists (C56).
* Logging.  A format with its arguments is the text it stands for; printing functions
  are the list of what they are given; the global of a thread is one state.
* Command line.  The build without URL support.
* Trace and SYNC lists.  As the gap list; padding and the header line of the trace list are
  left out; the current date in the SYNC list is an argument.
* Buffers and record lists.  The entries are kept apart from the segments, in the order
  in which they are made; a file is its bytes from the record on; the buffer the record of
  a file is read into is as long as the record; a NaN sample has one bit pattern; the
  list after a failed addition is not modelled.
* Files.  A file system maps names to contents; a name that is opened is a regular file.
  `fopen` of a record list entry finds the file as it was read.  How many bytes of a
  record `fwrite` takes is an argument; a closed standard output is a flag.
* Raw dumps.  The output is the list of the values of the fields printed and, for extra
  headers, the characters; labels, explanations of bits and codes and the text of error
  messages are left out, but messages are cut at 199 characters.  Floating point fields are bit patterns.  The alignment of the
  fields is not tracked.
* Printed records.  The texts that `%g` gives are arguments; the latency (`-L`) is left out.
* The inspector as a whole.  `-L`, `-r`, outputs to "-" and messages on standard error are
  left out; the reports are not printed (the result has the trace list they are made of); output
  files can be opened and take all bytes; after a failed addition there is no trace list.
* Extra headers.  A JSON value is a tree; the immutable and the mutable form are one type and
  copying is the identity.  Reading and writing JSON text (`yyjson_read_opts`,
  `yyjson_mut_write_opts`) are arguments.  Integers are one kind (yyjson: signed and
  unsigned).  Allocation, leaks and messages are left out.  `V2Model.v` does not use this model:
  it takes the JSON values it sets as its output.
* Not modelled at all: the reader and the writer of `yyjson.c`, URLs in `msio.c`, usage and version texts of `msi.c`.

## Tests against wrong programs

`seeded/LOG.jsonl` has one line per edit of a model definition that was tried in a
scratch copy.  `failed_lemmas` are the scripts that no longer compiled,
`failed_theorems` the property theorems among them or depending on them, `tightened`
what was changed in /verif when a theorem was too weak.  Edits that survived are
logged as well; those with the note that they did not compile were repeated in a form
that does.
