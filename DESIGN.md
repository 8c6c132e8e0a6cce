# A Rocq model of virtual-fido

The subject is the Go program in `/repo` (virtual-fido): a software FIDO2/U2F
authenticator which presents itself as a USB HID device over USB/IP (or a macOS
driver).  The proofs are about a hand-written Gallina model.  The Go code was
read as text; it was neither built nor run.

## 1. Layout

All Coq files are in `rocq/theories` (logical root `Verif`), flat:

* `Base.v` – bytes (`list N`, well-formed when every element is below 256),
  little and big endian codecs, the result type (`Ok`/`Panic`), list lemmas.
* `M_*.v` – the model, one file per Go package.  Every definition cites file and
  lines and says where it simplifies.
* `S_*.v` – specifications that do not use the model's helpers.
* `P_*.v` – proofs.
* `C_*.v` – the properties: theorem statements, `Print Assumptions`, and beside
  each theorem an `Example` that meets its hypotheses.

`MANIFEST.json` maps property ids to theorem names.  `seeded/LOG.jsonl` is the
record of mutation tests.
In it `lemmas_failed` are the proofs at which the build of the edited copy
stopped.  `theorems_failed` are the theorems of the manifest that use one of these
lemmas, directly or through others; it is not a list of theorems that became false.
The build was taken on past failed lemmas until a theorem was among them (in the
later lines: a theorem of the claim that the edit breaks), or until nothing else
failed.  Where no theorem is named the
edit survived; the line says which theorem was tightened or why the edit is harmless,
or a later line shows the same edit failing.  One line says that its run was stopped.

## 2. How the code is modelled

**Bytes.**  A Go `[]byte` is a `list N`.  Machine integers are `N` (or `Z` for the
signed ones) with the wrap-around written out.  `nil` and empty slices are told
apart (by `option`) where the code does.

**Panics.**  A Go panic is a value `Panic` of the result type.  Effects made
before the panic stay made: stateful code is written in a monad
`world -> world * res A`, where the world carries a trace of the calls to the
environment (approval questions with their answers, blobs given to the data
saver).  A crash point is a prefix of this trace.

**Environment.**  Random bytes, generated keys, the approver's answers and the
vault passphrase come from an environment record, indexed by a counter, over
which every theorem quantifies.

**Cryptography.**  SHA-256, HMAC, AES (one block), AES-GCM, scrypt, ECDSA and
ECDH are fields of a record of functions.  Theorems which need more than that
they are functions take as hypothesis a predicate collecting functional
laws (decrypt inverts encrypt, verify accepts what sign produced, lengths,
Diffie-Hellman commutes, GCM opens only what was sealed with the same key and
nonce).  A toy instance proves that the laws are satisfiable, hence no
theorem holds by contradiction.  No computational security is claimed.  CBC is
modelled concretely over the block cipher.

**CBOR and JSON.**  The encoder of fxamacker/cbor in CTAP2 mode and the decoder
for the struct types used here are written out concretely, likewise the subset of
encoding/json that the saved state uses, base64 and UTF-8 checking.  Their
behaviour is taken from documentation and memory of those libraries.

**Concurrency.**  Goroutines, mutexes, timers and channels are transition systems
with explicit steps; theorems quantify over all step sequences.

**Device histories.**  `M_History` strings the handlers together: starts (also
failing ones), CTAP, U2F and local requests, panics, and crashes at every point of
a request's trace; a start reads the blob saved last.

**Races.**  `M_Race`, `M_PinRace` and `M_VaultRace` are the unlocked read-modify-write
sequences on the U2F counter, the PIN retry counter and the list of credentials, one load or
store at a time, with any number of goroutines.

**Overlapping requests.**  `M_Overlap` cuts every request at its approval question, the
point at which a handler blocks on the user.  Any number of requests may wait and they are
answered in any order; a waiting login holds a pointer into the vault, as in the code.

**The whole device.**  `M_Device` puts the connection, the USB device, the CTAPHID
server and the authenticators together as `Start` and `startClient` do.  A message is
handled in one step; reads, writes, deliveries, timeouts, handlers, local calls,
kills and restarts interleave freely.

**The device with its goroutines.**  `M_Threads` is the same device in which a goroutine may
stop at the lock of its channel, at the user's answer and at the lock for sending; keepalive
tickers are processes of their own.  What happens between two such points is one step.

**macOS.**  `M_Mac` is the driver's frame list (a linked list over a heap with explicit
addresses, use after free and NULL being panics), its method table with argument checks, the C
and cgo glue, and the run loop, which handles one message at a time.

**Logging and the demo.**  `M_Log` is the log plumbing of `util/log.go` (delayed
writers, levels, outputs), and `M_LogRace` its use from several goroutines: the loggers' mutexes,
and a write to a shared `bytes.Buffer` as reading the length and copying.  `M_LogSet` has goroutines
log while another sets outputs and levels.  `M_HidLog` is `M_Hid` with its calls of the logger; `M_UsbLog` has the text of the lines of `usbip`
and `usb` about requests.  `M_Tools` is the CBOR
viewer of `cmd/tools`.  `M_Demo` is the demo's vault file as written byte by
byte, its questions and its delete, list and pin commands.

**Certificates.**  `M_X509` is `identities/attestation.go` with what it uses of `crypto/x509`,
`encoding/asn1` and `cryptobyte`: DER, names, dates, extensions, reading the authority's
certificate, signing and checking.  SHA-1, the two clock readings and the signature's randomness
are parameters.  `S_X509` is an independent reader of certificates with the checks of RFC 5280
and WebAuthn 8.2.

**Log of the handlers.**  `M_Logged` has the CTAP and U2F handlers again with every call of a
logger, which takes the kind of the line and what determines its text; it is proved to be the
handlers of `M_Ctap` and `M_U2f` when the log is dropped.  `M_Console` sends it through `M_Log`
with the demo's settings.

**Several processes.**  `M_Procs` runs any number of demo processes over one vault file.  Each reads
the file when it starts; a request runs on the process's own client and its questions and saves are
steps of their own, so that other processes come in between.  A save replaces the file in one step;
the random source is one for all.

**Questions.**  `M_Stdin` has the demo's questions as readers on one standard input: a read returns any
number of bytes that fits into the 4096-byte buffer of the question's own `bufio.Reader`.

**Network.**  A TCP connection is the list of chunks that successive reads
return.  In `M_Usbip`, `M_Device` and `M_Threads` a reply is written in one step and writes succeed.
`M_Write` has `responseMutex`, the lock of the request buffer, any number of connections and writes
that fail after any number of bytes; C124 shows that it refines `M_Threads`.

**Map of channels.**  `M_MapRace` splits the handling of a message up to the authenticator into the
lookup in `server.channels`, the wait for `messageLock` and the write of an INIT, with the check by
which the Go runtime ends the process on concurrent use of a map.  C128 shows that, until that
happens, the interleavings are those of `M_Threads`, where this part is one step.

**The Windows client.**  `cmd/demo/usbip/usbip-win` is a copy of usbip-win.  `M_Win` has what its
`attach` and `list` commands do with the socket, as programs that send and receive, and runs them
against any server and against the model of the Go server.  `M_WinFwd` is `usbip_forward.c`: the loop
that carries requests from the driver to the socket and replies back, with its buffers, the cache of
directions, and overlapped reads and writes that complete in any sizes and order.  `M_WinDrv` is the
request path of the driver `vhci` (its lists of requests, the half-read request, the pending read,
cancelling, aborting pipes, completion), composed with `M_WinFwd`.  `M_WinOut` adds unplugging and
removing the device and cancelled reads, with submissions in two steps.  `M_WinPair` runs these together
with the Go server over a connection that carries, in any pieces, just what was written; the server's
reader takes a step only when a message has come.

## 3. Trusted base

* Coq 8.16.1's kernel (and `coqchk`).
* For each theorem, what `Print Assumptions` lists; see section 6.
* The correspondence of the model with the Go text, which was established by
  reading.  Library behaviour (Go standard library, fxamacker/cbor v2.4.0,
  x/crypto) is modelled from knowledge, not from source.
* The cryptographic laws above, as explicit hypotheses.

## 4. Properties: what is modelled and how it is proved

| Id | Model | Method |
|----|-------|--------|
| C01 | `createResponsePackets` | induction on the number of packets against a closed form of the i-th packet |
| C02 | same; a host reassembler as specification | induction on the continuation packets; refutation beyond 7609 bytes |
| C03 | transactions, channel dispatch | induction on the packet list, generalised over the state |
| C04 | C02 + C03 composed | composition |
| C05 | server, `newChannel` | invariant over histories: ids are 1..k; needs fewer than 2^32-1 INITs |
| C06 | `HandleMessage` | case analysis + invariant of reachable states |
| C07 | server map of channels | frame lemma; induction on interleavings |
| C08 | emitted packets | case analysis over every emission |
| C09 | transaction errors | case analysis |
| C10 | server with panics | refuted; exact characterisation of the panicking messages |
| C11 | dispatch + framing | refuted for empty payloads; proved for non-empty handler results |
| C12 | lock model of `sendResponsePackets` | invariant over schedules |
| C13 | goroutine per packet | refuted by a schedule; proved for FIFO schedules |
| C14 | `StartRecurringFunction` transition system | refuted by a schedule; at-most-one-late proved |
| C15, C16, C17 | `RequestBuffer` with in-flight callbacks and timers | invariant over schedules |
| C18, C19, C20 | `usb`, `usb_device` | computation over all descriptors; bit-level reasoning; case analysis |
| C21..C27 | `usbip`, `usbip_server` | parsing lemmas; C22, C23, C26 expected to be refuted, with positive part |
| C28..C44 | `ctap`, `fido_client`, `identities`, `crypto`, `cose` | case analysis of the handlers in the monad; C34, C38, C39 invariants over histories with crashes |
| C45..C53 | `u2f` | parsing lemmas; handler analysis; invariants |
| C54..C58 | `identities` | list lemmas; codec round trips; C55 refuted (loop-variable aliasing), proved for vaults of at most one identity and for key material in general |
| C59, C60 | `cmd/demo` | file system steps; both refuted, with positive part (C59 over all histories and kill points) |
| C61, C62 | `cose` | codec round trip; C62 refuted for RSA and Ed25519 |
| C63 | CBC | induction on blocks |
| C64 | `util/log.go` | invariant over call sequences |
| C65 | integer codecs | arithmetic |
| C66 | setup packet bits | bit-level reasoning; refuted for the type field |
| C67, C69, C70 | `ctap` | codec round trips of request documents; handler analysis |
| C68 | `cose` signatures | case analysis over key types |
| C71..C74 | histories (`M_History`) | invariants over all histories with crashes and restarts |
| C75 | `cmd/demo` questions | list reasoning; refuted (U2F questions swapped, quotes in names), with positive part |
| C76 | `cmd/demo` pin set, pflag's integers | codec round trip; refuted for octal |
| C77 | `cmd/demo` list | induction on the vault |
| C78 | the whole device (`M_Device`) | refinement of every life to a history; invariant giving every frame a reason |
| C79 | same | composition of C16, C21 and the CTAPHID server; termination of delivery |
| C80 | overlapping requests (`M_Overlap`) | equality of programs; refinement in both directions for serial histories; invariant on request numbers |
| C81, C82, C83 | same | invariants over all interleavings; refuted in full by scripts of overlapping requests |
| C84..C87 | same | invariants over all interleavings, crashes and restarts |
| C88 | PIN requests step by step (`M_PinRace`) | a potential function bounds all schedules; a recursive schedule attains the bound; one request alone agrees with `M_Ctap` |
| C89 | `append` on the shared slice (`M_VaultRace`) | invariant over all schedules and array growths; refuted in full by two schedules |
| C90 | the whole device with its goroutines (`M_Threads`) | equality of programs for the cut; refinement of `M_Overlap` by an invariant over all steps |
| C91 | same | same invariant: messages sent, pending and delivered; FIFO of the request buffer |
| C92 | same | measure on what is pending; invariant that every lock has one live holder |
| C93 | same | invariant over runs without an answer; refuted in full by a session |
| C94 | C90 + C86 | counting along the refinement |
| C95 | the driver's linked list over a heap (`M_Mac`) | representation invariant, induction over operations |
| C96 | driver, glue and CTAPHID server on macOS | invariant over all lives; refuted in full by a 65-byte report |
| C97 | same | same invariant, subsequence and counting; measure for progress; refuted in full by a burst of 18 reports |
| C98 | same + `M_History` | refinement along the life |
| C99 | same + C79's transaction | equality with `hid_run` by induction over runs |
| C100 | the driver's method table | case analysis; refuted in full for every state |
| C101 | `C.CBytes` in the glue | invariant; refuted by induction on the number of pings |
| C102 | `CreateSelfSignedAttestationCertificate` (`M_X509`) | refinement: an independent DER and X.509 reader (`S_X509`) recovers every field |
| C103 | `handleU2FRegister` + C102 | composition; the certificate is delimited by DER alone |
| C104 | `handleMakeCredential` + C102 | composition; refuted for string types, for every registration |
| C105 | serial numbers | refuted; distinctness from C102 |
| C106 | `CreateSelfSignedCA` | totality and read back; path validation (RFC 5280, 6.1) |
| C107 | issue times | composition; refuted by an expired authority |
| C108 | `NewDefaultClient` | composition with C53 and C70; refuted by a certificate of another key |
| C109 | CTAP handlers with their log | case analysis of every path; refuted by setting or trying a PIN |
| C110 | U2F handlers with their log | case analysis of every path; refuted by a foreign handle and by a refused registration |
| C111 | the demo's settings of `util/log.go` | invariant over call sequences with C109 and C110; refuted |
| C112 | processes of `cmd/demo` sharing the vault file | invariant over interleavings; refuted for two passphrases |
| C113–C115 | the same, with deletion, registration and PIN | refinement of sequential processes to histories (C71, C73, C74); refuted for overlapping ones |
| C116–C118 | `prompt` of `cmd/demo` with bufio over the standard input | invariants over all interleavings of questions, typing and reads; refuted |
| C119 | `createClient` of `cmd/demo`, U2F handlers | invariant over pairs of histories with C49; refuted |
| C120 | `usbip_server.go` with its locks, failing writes and connections | simulation by the runs of C20–C26 |
| C121 | the same | refuted; invariant over all continuations of the failure; partial for the control phase |
| C122 | the same | invariant and a measure of the writes outstanding |
| C123 | the same | invariant of C120 |
| C124 | the whole device behind that server | refinement of `nlife` to `tlife` (C90) |
| C125 | conversations with `M_Client`, `M_Ctap` and `M_U2f` | relational logic on pairs of executions; refuted with deletions |
| C126, C127 | the same | the same relational logic |
| C128 | the goroutines of `ctap_hid` and their use of the map of channels | invariant over all schedules; linearisation; refuted from every quiet state |
| C129 | the whole device with its goroutines, left alone | lexicographic measure; invariants of C90–C92 |
| C130 | descriptors read by a host (S_Enum: control transfers, HID items), control and interrupt submits | evaluation of the host on the device's transfers; the transfers on the wire from C22's reader lemma |
| C131 | control submits | as C130 |
| C132 | the reply to an import, descriptors | case analysis of the reader |
| C133 | channel numbers of `ctap_hid` | induction over INITs; modular arithmetic; refuted after 2^32 of them |
| C134 | the log (`M_Log`) | invariant of C64; refuted by induction on the number of texts |
| C135 | loggers, mutexes and buffers of the log (`M_LogRace`) | invariant over all schedules; refuted for any two loggers of a level |
| C136 | `cmd/tools` | locality of the CBOR decoder by induction on its fuel |
| C137 | CTAP requests and what follows them | locality of the CBOR decoder |
| C138 | `usbip.exe attach` of the bundled Windows client and the server | as C130, with the client's program run against the server |
| C139 | the client's descriptor buffers | case analysis over all servers; refuted by a server that announces too much |
| C140 | `usbip.exe list` | induction over devices and interfaces; refuted with the server of the repository |
| C141 | the Windows client's forwarder (`M_WinFwd`), requests | invariant of the two buffers over all runs |
| C142 | the same, when it waits | the same with an invariant about switching buffers; refuted by a run |
| C143 | the same, replies | invariant of the cache of directions; refuted by a run with 1025 requests |
| C144 | its memory | invariant over all runs with arbitrary input; refuted by two replies |
| C145 | the Windows client's driver (`M_WinDrv`) with the forwarder, requests | invariant of both over all orderly runs; refuted by three runs |
| C146 | the same, at rest | the same; refuted by runs, one with an invariant over all continuations |
| C147 | the same, completions | permutation kept by every step of every run |
| C148 | the same, outcomes of blocks | invariant that joins the replies carried, the requests given out and the completions; refuted by a run |
| C149 | the driver's memory | the same invariant; refuted by three runs |
| C150 | the Windows client attached to the Go server | the server's log and frames on a part of the messages, joined with C148 and C149; refuted by a run of both |
| C151 | the same, running together (`M_WinPair`) | invariant of the joint run; causal order gives what C148 assumes; refuted by a run |
| C152 | `setOutput` and `Write` of the log in steps (`M_LogSet`) | conservation of lines over all schedules; refuted: a line logged between test and assignment stays behind |
| C153 | `ctap_hid` with its log (`M_HidLog`) | relation of two runs with different authenticators; packets determine their payload |
| C154 | `M_WinDrv` with unplugging and removal (`M_WinOut`) | accounting of all blocks over all runs; refuted by a late submission and a read without cancel routine |
| C155 | text that `usbip` and `usb` log (`M_UsbLog`) | injectivity of formatted text; refuted by values that a mask or a map loses |
| C156 | memory of the HID server (`M_Hid`) | invariants over all histories; refuted by one request per channel |
| C157 | memory and answers of the USB/IP server (`M_Usbip`, `M_ReqBuf`) | potential over all interleavings; refuted by announced lengths |
| C158 | goroutines of a keepalive loop (`M_HidConc`) | invariant and measure over all schedules; refuted by the choice of select |
| C159 | recorded PIN requests (`M_Ctap`, `M_History`) | what a request for the token does, for all states; refuted by sending it again |
| C160 | which credential answers (`M_Client`, `M_Ctap`) | invariant over conversations; refuted by two registrations |
| C161 | deletions (`M_Client`, `M_Ctap`) | what a deletion does to the order, for all vaults; refuted by three registrations |
| C162 | registrations of one account (`M_Client`, `M_Ctap`) | what a registration adds, for all states; refuted for every state with the account |
| C163 | members of login answers (`M_Ctap`) | uniqueness of the canonical document; refuted for every answer |

When a property is false of the faithful model, the full statement is kept as a
`Definition`, a theorem `..._refuted` proves its failure, and a theorem
`..._partial` proves the strongest part found to hold.

## 5. Not modelled

* On macOS: the installer and tester programs, matching of the driver, failing allocations and
  IOKit calls, and more than one user client.
* Of `usbip-win`: the stub driver, of vhci everything but the requests of one virtual device and, of
  these, isochronous ones, RESET_PIPE, node connection ioctls and what
  it caches of descriptors; calls of vhci are atomic (but see `M_WinOut`); installation of drivers, `usbip_stub.c` and exporting devices
  from Windows (`usbipd`), `attacher.exe`, `bind`, `unbind`, `port`, `detach`, local listing, getopt
  and names of devices.  Of `usbip_forward.c`: reads and writes that fail or complete with no bytes,
  failing allocations, Ctrl-C and closing; C141 to C143 leave out isochronous requests.
* Command line parsing of the demo (except the integer of `pin
  set`) and of `cmd/tools`, the usbip process the demo starts, and `test/test.go`.
* Certificate construction is an oracle `e_make_cert` for the rest of the device; `certifies` (in
  `S_X509Dev`) says that it is the function of `M_X509`.  Authorities have P-256 or Ed25519 keys;
  time zones, path length constraints and other extensions than those written are left out.
* Errors of the operating system other than a closed connection and failing writes to it, and
  failures of the random source.
* Formatting of log lines (package fmt is any function; addresses of pointers are left out) except in
  `M_UsbLog`; of the logs of `usb` and `usbip` what is not about requests and replies; errors that
  are logged.
* Timing: timers are nondeterministic steps.
* Go's check for concurrent use of a map, except for `server.channels` in `M_MapRace`; data races on
  anything else are not modelled.

## 6. Print Assumptions

Each of the 478 theorems named in `MANIFEST.json` is followed by `Print
Assumptions`; for every one of them Coq answers "Closed under the global
context".  No axiom is used, neither of the standard library nor of our own.
