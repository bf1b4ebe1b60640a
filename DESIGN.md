# Formal model of aboukirev/ouro in Rocq (Coq 8.16.1)

## Layout

| files in `rocq/theories` | contents |
|---|---|
| `Base.v` | bytes, fixed-width wrap-around, result type (`Ok`/`Err`/`Panic`/`Fuel`), slices |
| `GoStrings.v` | the Go standard-library string functions the code calls |
| `M_*.v`  | the model, one file per Go file; every definition cites the lines it models |
| `S_*.v`  | small independent specifications (H.264/RFC syntax as writers, reference formulas) |
| `L_*.v`  | lemmas |
| `P_*.v`  | property theorems only, each with a non-vacuity `Example` and `Print Assumptions` |
| `T_repo.v` | the project's unit tests, run on the model |

`tools/props.py` is the one source of `properties.jsonl` and `MANIFEST.json` (run `tools/gen.py`).

## Modelling conventions

* A Go byte/uint/int is a `Z`; wrap-around is written explicitly (`u8`, `u16`, `u32`, `u64`, `i32`, `i64`)
  wherever Go arithmetic can wrap.  `int`/`uint` are 64 bits.
* A slice is a list.  Capacity beyond length is not modelled; where an expression could reach past `len`
  up to `cap` the definition says why that cannot be observed.
* A Go panic (index/slice out of range, nil dereference, division by zero) is the value `Panic`.
* A loop is structural recursion or recursion on fuel; running out of fuel is the value `Fuel`, distinct from
  every normal result, and theorems exclude it.
* A method that mutates its receiver returns the new receiver.
* Map iteration order is an explicit argument (any permutation); theorems quantify over it.
* Goroutines are steps of a labelled transition system.

## What is proved about false properties

Several properties users rely on are violated by the code at this commit.  For those the full statement is kept
in `properties.jsonl`, a `_refuted` theorem gives a machine-checked counterexample, and a `_partial` theorem
proves the property under an explicit, as-weak-as-possible hypothesis (often an exact characterisation).

## Plan per property

| id | model | how proved |
|---|---|---|
| C01,C02,C05 | `M_bits` reader record, abstraction to the list of unread bits | refinement: every operation is an operation on the bit list; value exact up to the 32-bit accumulator loss; invariant over op sequences |
| C03,C04 | same | codeword writer in `S_bits`, decode-encode by induction on leading zeros |
| C06 | same | spec recursion over delta list |
| C07,C08 | same | characterisation on bit list |
| C09-C12 | `M_annexb` | zero-run induction; exact panic condition; standard encoder in `S_annexb` |
| C13,C14 | `M_annexb` | scanning-loop invariant: all start codes strictly before `off` have been handled |
| C15-C22,C24 | `M_nal` sink record | per-packet functional lemmas, composed with the Annex B lemmas |
| C23 | `don_diff` | arithmetic against the RFC definition |
| C25,C28 | `M_sps` parser over the reader | invariant on reader; panic analysis; state only changes at the final store |
| C26,C27,C29 | writer of the H.264 syntax in `S_sps` | decode-encode through the bit-list abstraction |
| C30 | same | induction over history |
| C31-C37 | `M_rtp` | writer of RFC 3550 layout; exact panic condition |
| C38-C40 | `M_hls` | ring invariant in terms of number of additions |
| C41-C43 | `M_sdp` | fold over lines |
| C44-C48 | `M_digest` with MD5 written in Gallina | formula equality, history induction |
| C49-C51 | `M_transport` | decimal round trip, field-by-field parse lemmas |
| C52-C54 | `M_message` | map laws; parser on rendered text |
| C55-C57 | `M_conn` stream of bytes and timeouts | induction over frame sequence |
| C58-C65,C67 | `M_session` state machine | invariants over histories |
| C59,C66 | interleaving transition systems | witness schedules; invariants |
| C68,C69 | `M_message` | text lemmas |
| C70,C71 | `M_main` | event-loop state machine |
| C72-C77 | `M_session`, `M_udp`, `M_main` | invariants over histories; witness runs |
| C78-C82 | `M_main` over `M_session`, `M_nal`, `M_rtp` | runs of client and server composed |
| C83 | `M_session`, `M_digest` | invariant over what is written and logged |
| C84-C86 | `M_url`, `M_dial` | parse of rendered URLs; refutations for all such URLs (`L_odd`) |
| C87 | `M_session` | no line break in any part of a request, invariant over runs |
| C88-C90 | `M_hls` | an RFC 8216 reader in `S_m3u8`, reading back by induction over the entries |
| C91 | `M_session` | simulation between a session with credentials and one without; composed with the lemmas of C79 |
| C92, C93 | `M_bufio` | the reader's array and indices represent the stream of `M_conn`; invariant through every read, simulation of runs |
| C94–C96 | `M_share` | sink in a memory of arrays; reachable slices stay valid and outside the caller's buffers, which makes it the same as `M_nal`; the units of a packet lie in one array, three bytes apart |
| C97 | `M_main` over `M_session` | server, session's loop and client interleaved; invariant with a phase and a decreasing weight |
| C98 | `M_prog` over `M_dial`, `M_main` | composition of C84 and C97 |
| C99 | `M_nal` | numbers of C17-C19 compared by C23 |
| C100, C102 | `M_message`, `M_session` | first line or content unread: error, end of the loop |
| C101 | `M_session`, `M_digest` | the header keeps the last field of a name; C45 for its answer |
| C103 | `M_main` over `M_session` | refusal leaves the system idle; idleness is invariant |
| C104 | `M_session` | simulation between two runs, equal but for `s_verbs`, the input and the text of responses |
| C105, C106 | `M_session` | from C79 |
| C107 | `M_log` over `M_main` | lines of packets as a function of the frames taken; C81 |
| C108 | `M_log` | from C83 |
| C109 | `M_message` | trimming and canonical names are idempotent |
| C110 | `M_url`, `M_dial` | round trip of fragments, as for paths |
| C111 | `M_access` (what each method touches, in order) | an invariant of the lock along traces; sets of parts per goroutine; witnesses |
| C112 | `M_hash` (loads and stores of the digest) | invariants over all schedules |
| C113 | `M_among` over `M_session` | counting numbers; an invariant of the answers |
| C114 | `M_nal` | induction over the payloads |
| C115 | `M_url`, `M_dial` | each kind of mistake followed through the parser |
| C116 | all of `M_session`, `M_main`, `M_digest` | simulation of the scene of C97: a run with challenges is one without, up to the credentials and the repetitions |
| C117 | `parse_sprop`, `parse_sps`, `parse_pps`, `push` | encapsulation leaves bytes without two zeros and a small byte alone (induction on the zeros so far); then C26, C29; in band C15; witnesses computed |
| C118 | `M_app` over `M_session` | invariant: taken ++ waiting = signalled; a turn signals at most one thing; a loop that stands still stays so |
| C119 | `M_ring` over `M_hls` | the state after every store (an invariant over the six stores of a call); induction over the loop of `String`; witnesses computed |
| C120 | `M_session` | invariant: queued and sent requests are of five kinds |
| C121 | `M_open` over `M_session`, `M_dial` | invariant: past the first stage neither DESCRIBE nor SETUP is queued; witnesses computed |
| C122 | `M_session` | invariant: the listeners of the log are those of the pool |
| C123 | `M_session` | C65, and an invariant: every keep-alive of the log is followed by its request; induction over the stream for TCP |
| C124 | `M_digest` | the grammar of RFC 2617; trimming and splitting lemmas |
| C125 | `M_rtp` | the packets of a compound packet and the loop that reads them (`S_compound`); exact condition for a packet to depend on its own bytes |
| C126 | `M_session` | invariant of a session that is done with nothing outstanding; the log as seen by the observer of `S_session` |
| C127 | `M_sdp` | attributes by their meaning (`S_attrs`), their effects commute |
| C128 | `M_sdp` | the effects of all attributes in their order, over C41 and C43 |
| C129 | `M_session`, `M_transport` | the requests that follow a description, exactly |
| C130 | `M_listen` over `M_session` | the local address of every listener |
| C131 | `M_transport`, `M_session` | the error of Parse is a function of the text; one SETUP answer, exactly |
| C132 | `M_session` | the k-th write fails; counting answers below the number of streams |
| C133 | `M_transport` | each parameter changes its own member, by induction over the parameters |
| C134 | `M_session` | the invariant over all runs that every request but SETUP goes to the opened URI |
| C135 | `M_session` | two runs of one answer that differ in the status, related with the log as a frame |
| C136 | `M_message`, `M_session` | induction over the lines of a header; lengths of lists |
| C137 | `M_session` | invariant over all runs; induction over the turns |
| C138 | `M_main`, `M_rtp`, `M_nal`, `M_session` | a report is read as a packet; induction over the packets |
| C139 | `M_main`, `M_rtp`, `M_nal` | induction over the packets; corollary of C81 |
| C140 | `M_rtp`, `M_main` | exact result of unpacking, from C125 |
| C141 | `M_sps` | the run of the parser on the syntax, without the ranges |
| C142 | M_digest, S_authfield | the strings are read by a separate reader with escapes; induction over the text (behind an escape the string lags behind the text, so it never becomes the name again) |
| C143 | M_digest, S_authfield | the same reader keeps whether a value was quoted |
| C144 | M_annexb, S_zeros | the scanner of C13, run over zeros of any number; the result determined, then compared with the units |
| C145 | M_session, M_message, S_onesession | corollary of the conversation of C79 and of the shapes of requests of C120 |
| C146 | M_clock, S_clock | arrivals with times; induction over the arrivals, then over the history; simulation by the stream of M_conn |
| C147 | M_wire, M_session, S_wire, S_lines | requests are blocks of lines (C87); the reader of messages run over blocks, whole and cut |
| C148 | M_session, M_digest, S_creds | invariant over all histories: the state of the digest is that after the requests since the latest repetition; every prefix of the log |
| C149 | M_float, M_hls, S_float | the text of every float64 reads as a decimal that rounds to it: invariant of the digit loop, then digits and playlist read back |
| C150 | M_session, M_conn | what is still to be read gets shorter in every turn after which the loop goes on; runs of any length |
| C151 | M_message, M_conn, S_ends | the lines of a head read one by one with a variable end; the trimmed line does not depend on it |
| C152 | M_sdp, S_ends | splitting at LF gives the lines up to a CR at their end, which is trimmed |
| C153 | M_session, S_sets | invariant over all histories: sections and sets of the feeds with their source |
| C154 | M_session, S_sets | corollary of C153 for sections without sets; runs over frames |
| C155 | M_log, M_main, S_record | the entries of every step split into messages and notices, composed over executions; stages and ticks read back by their first words |
| C156 | M_stdout, S_stdout | pieces of standard output as any merge of log entries and the texts of Start; the invariant of C122 |
| C157 | M_newlist, S_hls, S_url | C86 and C39 composed behind the arguments of NewPlaylist |
| C158 | S_named | provenance as an invariant over all histories, read back from the text of the requests |
| C159 | S_tunnel | the answer taken line by line; the inverse from what reading a line gives |
| C160 | C55, C139 | composition of the delivery of frames and of what the client shows of them |
| C161 | S_goes, L_goes, P_goes | invariant over all histories; the items are taken by C55, the requests that may be answered are those of C137 |
| C162 | S_garbled, L_garbled | a relation between texts and bytes (RFC 4648) and what is left of a damaged text, shown equivalent to the decoder; the fmtp attribute with any values |
| C163 | S_short, L_short, C149 | invariant of the digit loop: no multiple of the power of ten just passed lies between the neighbours' middles; an inequality between powers of two and ten where the digits are exact |
| C164 | S_format, L_format, C43 | every operation commutes with forgetting the formats; a bisimulation over histories of the session and executions of the program |
| C165 | S_either, L_either, C26, C29 | congruence of the reader's bind; four flags too many, read from each of the 25 codes that can follow |
| C166 | S_steps, L_steps | invariant: phases of session and program; in each, the requests without an answer are of one kind and no more than are still needed |
| C167 | M_timer, S_timer, L_timer | the stage was taken five seconds before the timer is due, and it is off when a stage is taken |
| C168 | S_tally, L_tally | requests waiting and stages announced, less requests made: no step increases it |
| C169 | S_entail, L_entail, P_entail | an account of costs and of the worth of waiting requests, kept by every step (L_entail, rates) |
| C170 | S_volume, L_volume, P_volume | the fragments held as credit; sizes of units by induction on the loops |
| C171 | S_streams, L_streams, P_streams | two runs side by side, related by the contents of the fragments held |
| C172 | S_aside, L_aside, P_aside | two runs side by side, logs compared without the packets |
| C173 | S_unused, L_unused, P_unused | idle lines leave the state of the parser as it is; insertion by induction |
| C174 | S_params, L_params, P_params | each parameter is a list of changes independent of the state; changes of different kinds commute; induction on the permutation |
| C175 | S_follow, L_follow, P_follow | each read gives the same with whole bytes appended to the unread bits; closed under sequence and loops |
| C176 | S_joined, L_joined, P_joined | induction on the first stream over the naive scanner of L_annexb |
| C177 | S_origin, L_origin, P_origin | a sink with moved times is carried along each function of Push |
| C178 | S_alike, L_alike, P_alike | the layout of C31 is determined by the packet; the words of a control packet read back to bytes |
| C179 | S_changed, L_changed, P_changed | what is kept determines the elements, by the relation of C26 |
| C180 | S_pchanged, L_pchanged, P_pchanged | what is kept determines the elements, by the relation of C29; a pair found by search |
| C181 | L_asitcomes, P_asitcomes | induction on what has come over the naive scanner of L_annexb |
| C182 | S_escaping, L_escaping, P_escaping | induction on the length, one step of the encoder at a time |
| C183 | L_pieces, P_pieces | from C01 and C02, the value of a list of bits cut in two |
| C184 | L_piecewise, P_piecewise | induction on the first piece |

The exact statements are in `properties.jsonl`; `MANIFEST.json` names the theorems of each.  `T_repo.v` runs the project's
own unit tests on the model.

## Trusted base

1. **Coq 8.16.1's kernel**, with `vm_compute` (used to check examples and witnesses).  No kernel check is switched off.
2. **Axioms: none.**  `Print Assumptions` stands beneath every property theorem and answers "Closed under the global context"
   for each.  The library-wide listing of `vcheck` also names `Coq.ssr.ssrunder.Under_rel.*`.  These belong to the module type
   in the standard library's own file, which is loaded along; no theorem depends on them.
3. **That the model says what the code does.**  It was written by reading the source: the code was never built or run here.
   `T_repo.v` is a check on this, and the only one made against results expected by the project's authors.
4. **That the specifications (`S_*.v`) say what the English in `properties.jsonl` says.**  `seeded/LOG.jsonl` records attempts to
   break this by changing the model.

   How far the log goes: a theorem counts as failed when its proof, or a proof it rests on, no longer goes through.  That is not a
   proof that the theorem is false of the changed program.  The entries with a number for an id were written by hand: the claim was
   named before the run, failing lemmas were admitted one after the other, and the theorems that then rest on them were listed by
   `Print Assumptions`.  The entries with an id in `a` or `b` were generated: only the first proof to fail was observed, the theorems
   listed are those that use it by name, and nobody judged which of their claims the change breaks.  They say that a change
   is noticed by some proof, and no more.

### Parts of the code modelled

Every function of the repository has a counterpart, as far as the restrictions below go.

| Go file | model | restrictions |
|---|---|---|
| `net/h264/bits.go` | `M_bits` | |
| `net/h264/annexb.go` | `M_annexb` | |
| `net/h264/packet.go` | `M_nal`, `M_share` (with memory) | slices of `Units` are values in `M_nal`; C94 proves it the same as `M_share`, where slices are windows on shared arrays |
| `net/h264/spspps.go` | `M_sps` | allocating `picSize + 1` bytes is taken to succeed |
| `net/rtp/packet.go`, `net/rtcp/packet.go` | `M_rtp` | slice bounds are checked against the length, not the capacity |
| `net/sdp/packet.go` | `M_sdp` | |
| `net/hls/playlist.go` | `M_hls`, `M_ring` (with concurrent calls), `M_dial` | a duration is an opaque bit pattern, its text an arbitrary function; `nseg` is not negative; `FileName` and `SegSize` are omitted (never read) |
| `net/rtsp/digest.go` | `M_digest`, `M_hash` | the random bytes behind the client nonce are an argument |
| `net/rtsp/transport.go`, `feed.go` | `M_transport`, `M_session` | |
| `net/rtsp/message.go`, `http.go` | `M_message` | the order of map iteration is an argument |
| `net/rtsp/connection.go` | `M_conn` (reading), `M_bufio` (reading through `bufio`), `M_dial` (Dial), `M_session` (Write), `M_udp` (AddSink, Start, Stop), `M_listen` (the address in AddSink) | see below |
| `net/rtsp/session.go` | `M_session`, `M_open` (Open again), `M_race`, `M_access`, `M_among`, `M_app` | see below |
| `cmd/ouro/main.go` | `M_main`, `M_prog` (main), `M_log` (its output, with that of `session.go`) | see below |

### Simplifications

* **Standard library.**  The functions called are modelled after their documentation and Go 1.19 to 1.24, not verified:
  `strings`, `strconv`, `encoding/hex`, `encoding/base64`, `net/textproto` key canonicalisation (`GoStrings`), `net/url`,
  `net.SplitHostPort`, `path`, `path/filepath` (`M_url`), `flag` (`M_prog`), `crypto/md5` (RFC 1321, in `S_md5`; model and specification share it), `bufio`, `encoding/binary`.
* **Letter case.**  `ToLower`/`ToUpper` change ASCII letters and the runes whose image is ASCII.  Other letters are kept.
* **Floats.**  Durations are bit patterns of IEEE 754 binary64.  `M_hls` takes `strconv.FormatFloat` as an arbitrary function from bit
  patterns to text; `M_float` models it (C149) after `roundShortest` of the Go library.  That the library's faster algorithm (Ryu) gives
  the same text is trusted; the model was compared with another implementation of shortest decimals on 162 numbers.
* **Incoming bytes.**  A connection is a list of bytes and pauses longer than the read timeout; C92 proves this to be the same
  as pieces of any size read through the buffer of `bufio` (`M_bufio`, after the source of `bufio`).  C146 proves the
  pauses to be those of a clock with deadlines (`M_clock`), on which running the code takes no time.  A read of the socket
  returns bytes or an error, not both.  A temporary error other than a timeout counts as a pause; the code treats them alike.  `io.ErrUnexpectedEOF` in
  `ReadUint16` is represented by `ErrEOF`; no caller tells them apart.
* **Outgoing bytes.**  A write succeeds whole or fails.  In HTTP mode the POST connection is nil and `Write` panics.
* **Network.**  `ResolveTCPAddr` and `DialTCP` are one oracle that says which addresses can be reached.
* **Turns.**  In `M_session` one turn of the session's loop is one step.  What a session sends on its channels is a log.
  The interleaving of several goroutines is in `M_race` (commands), `M_hash` (the digest), `M_among` (Setup), `M_access` (everything a session shares, without values), `M_udp` (listeners), `M_ring` (playlists), `M_app` (any application and session) and `M_main` (client and session).
* **Memory model.**  Interleavings are sequentially consistent.  Go promises less for racing accesses, so the races shown
  stay possible, but the absence of other effects of a race is not claimed.
* **Timers.**  As in Go before 1.23 (`go.mod` names no version): a tick already in the channel survives `Reset`.  A timer expires at some time from when it is due and not before (`M_timer`, C167).
* **Maps and sets** are lists.  Theorems quantify over the order where it can be seen.
* **Output.**  What is printed through package `log` is in `M_log`, as a function of the state and the step; dates are left out, and error texts are arbitrary.
* **Not modelled:** memory limits, scheduling fairness, real time.
