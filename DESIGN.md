# Formal model of bsn1 / bsn1_serde / bsn1_serde_macros

Rocq (Coq 8.16.1). Build: `cd rocq && coq_makefile -f _CoqProject -o Makefile && make -j4`.

## Layout (rocq/theories)

| files | role |
|---|---|
| `Base` | octets, results (`Ok`/`Err`/`Panic`/`NoFuel`), errors, list helpers |
| `ModelError` | `Error`: comparison, context, `root_cause` (bsn1/src/lib.rs) |
| `ModelIo` | readers, parser monad, `read_u8`, `read_exact` (misc.rs, std) |
| `ModelTag` | identifiers and lengths (identifier*.rs, length*.rs, id_tags.rs) |
| `ModelContents` | contents of booleans and integers (contents*.rs) |
| `ModelBuf` | the buffer as the codec sees it: octets, capacity, inline or heap |
| `ModelTlv` | `DerRef`, `BerRef`, `Der`, `Ber`: slice parsers, builders, mutations, streaming parsers |
| `ModelHeap`, `ModelBufLE`, `ModelBufUE` | allocator and blocks; the two storage layouts octet by octet (buffer/*) |
| `ModelEndian` | `to_be`, `from_be` and memory words on machines of either byte order; both layouts on any machine; which is compiled (buffer/mod.rs:17-25) |
| `ModelTlvRaw` | `Der` and `Ber` on raw memory: the functions of `ModelTlv` that touch the buffer, over any layout |
| `ModelUnwind` | parse, from_id_iterator and extend_from_slice on raw memory, step by step, with unwinding and readers that are arbitrary safe code |
| `ModelSerRaw` | to_der and write_der on raw memory with any Serialize and writer (bsn1_serde/src/lib.rs:32-106) |
| `ModelReadRaw` | read_der and read_ber on raw memory with any reader and Deserialize (bsn1_serde/src/lib.rs:177-199) |
| `ModelRelease` | what the release profile changes: both layouts, Der and Ber on raw memory, parse with unwinding |
| `ModelBorrow` | the functions with raw pointers as reborrows and accesses; Stacked Borrows and Tree Borrows |
| `ModelThreads` | the operations of both layouts as sequences of memory accesses; `Send` and `Sync` |
| `ModelText` | Display and Debug of errors and values; the texts behind the numbers of contexts |
| `ModelWord` | what the width of `usize` changes: lengths, the allocator, both layouts |
| `ModelWordTlv` | ... and the parsers, builders and operations of `Der`, `Ber` and the references over them |
| `ModelSerWord` | ... and serialisation, in the dev and the release profile |
| `ModelDeWord` | ... and deserialisation |
| `ModelUse` | reading from streams and `mut_id` as steps of programs on raw memory |
| `ModelPartsRaw` | `LengthBuffer`, `Id`, `Contents` and `to_integer` on raw memory, over any layout; integers on the stack are octet lists with checked offsets |
| `ModelSerde` | writers, the traits `Serialize`/`Deserialize`, the entry points and all provided implementations (bsn1_serde/src) |
| `ModelAttr`, `ModelDerive` | attributes from tokens; what the code emitted by the derive macros does (bsn1_serde_macros/src) |
| `ModelRust`, `ModelEmit` | the fragment of Rust in which the macros write, with an evaluator; the code they emit, token for token up to formatting (bsn1_serde_macros/src) |
| `ModelCmp` | comparison, hashing, conversions of identifiers, lengths, `Der`/`Ber` and `OctetString` |
| `ModelConv` | conversions between slices, vectors, borrowed and owned values; Index; tag numbers |
| `Spec` | X.690 lengths, identifiers, integers, TLVs, BER trees |
| `SpecIo` | what a reader delivers, independent of schedule |
| `SpecBuf` | histories of buffer operations and their meaning on a byte vector |
| `SpecTlv` | programs over Der, Ber and vectors and their meaning on identifiers and contents |
| `SpecParts` | programs over Id, Contents and vectors and their meaning on numbers and octets |
| `SpecRefuse` | Serialize implementations that refuse values, and the types with such parts |
| `SpecSerde` | codecs (type, DER octets, BER forms), `laws`, the set of `provided` types |
| `SpecAttr`, `SpecDerive` | documented attribute grammar and conflicts; documented meaning of derives, the sets `supported` and `direct` |
| `SpecEmit` | names of the user that emitted code may take for its own; what it means that code does what an implementation does |
| `SpecCmp` | dictionary order, universal tags of X.680 |
| `SpecX690` | the whole grammar of BER and DER, down to primitive values |
| `SpecRec` | types that contain collections of themselves: implementations as solutions of an equation; a tree and a document type |
| `SpecDepth` | implementations on a stack with room for `k` nested calls |
| `SpecColl` | sets and maps made of elements and entries with repetitions; decoded items; what decoded values are (`sound`, `compact`, `decoded`) |
| `SpecFail` | where decoding stops and with which error; declarations derive takes |
| `SpecOrder` | types without hash tables; the order of SET OF (X.690 11.6) |
| `SpecRelease` | when two ends of a function, one in each profile, are the same |
| `SpecUse` | programs that also read values from streams and edit identifiers |
| `SpecCalls` | the calls of `Read::read` that a parser makes |
| `SpecLoose` | octets read without any check, what they claim, editing a value |
| `SpecSerRaw` | a Serialize of the user as programs that write; the octets they lay down, when they ask for too many |
| `SpecReadRaw` | what a value read from any reader must be; the parts a Deserialize may be given |
| `SpecFill` | readers that write what they report; one outcome of a parser |
| `SpecWrites` | the calls of `Write::write` that serialisation makes |
| `SpecInit` | the octets two runs show |
| `SpecLeft` | octets that decide a failure |
| `SpecCreate` | what creating a value may do, by its size |
| `SpecWord`, `SpecSerWord`, `SpecDeWord` | what machines of other word sizes are asked to do |
| `SpecText` | what the texts of errors are to tell |
| `SpecLink` | views of the aliasing models beside buffers in raw memory |
| `SpecUnwind` | what must be left in memory when a function returns or panics |
| `SpecMem` | allocators that differ only for large requests |
| `SpecConv` | chains of conversions; the positions of an index |
| `*Proofs`, `*Main`, `Raw*`, `Serde*`, `Attr*`, `Derive*`, `Emit*`, `Borrow*`, `UnwindProofs`, `RelProofs` | lemmas
| `Props*` | the theorems, each with an example and its assumptions |
| `RepoTests`, `RepoTestsSer`, `RepoTestsDe` | the integration tests of bsn1_serde/tests run on the model (tests, not proofs) |
| `RepoTestsUnit`, `RepoTestsSrc` | the unit tests of bsn1/src and of bsn1_serde/src run on the model (tests, not proofs) |
| `Props*` | the property theorems (`C01_...`), examples of non-vacuity, `Print Assumptions` |

Every definition in a `Model*` file cites file and lines in /repo. `Spec*` files do not
use the functions of the model, only its data types (results, errors, records), except to say how a
program runs on the model (`rrun` in `SpecBuf`, `vraws` in `SpecTlv`, `praws` in `SpecParts`), which values a parser on octets returns (`stream_value` in `SpecUse`; C13, C15 and C23 say which) and, in `SpecColl` and `SpecFail`,
to say what the decoders of the parts return (`serde_from_der`, `serde_from_ber`, `field_de`) and
which attribute a declaration has (`Attribute_try_from`, itself characterised by C32 and C35); `SpecConv` lists the conversions
of the model that chains are made of.

## Modelling conventions

* An octet is an `N` below 256; a slice / `Vec<u8>` is a `list N`. Theorems about
  arbitrary input quantify over lists all of whose elements are octets.
* `usize` is 64 bits wide, except in `ModelWord`, `ModelWordTlv`, `ModelSerWord` and `ModelDeWord`, where a word has any number of octets from 1 to 8:
  the code that depends on the width is `Length`, the length buffer, the two buffer layouts and the sums in `Der`, `Ber` and the serialisers.
  Slices have at most `isize::MAX` octets where this matters.
* Rust results are `res A`: `Ok`, `Err e`, `Panic` (any panic, arithmetic overflow as in
  the dev profile, out-of-range index, and any access that would be undefined behaviour) and
  `NoFuel` (a loop of the model ran out of fuel; theorems show it does not occur).
* The profile is dev (overflow panics, debug assertions on) except in `ModelRelease`, where sums
  and differences of `usize` wrap around and assertions are gone.  There, sums of an identifier's and a
  length's size are left as they are.  In `ModelSerde` the debug assertions are a parameter.
* Mutable arguments (`&mut &[u8]`, `&mut R`, `&mut W`) are state: outcome and state
  afterwards, also after errors.
* `impl Read` is a record with one operation `read` on an arbitrary state. Theorems
  quantify over readers; `sched_reader` (list of chunks and failures) covers every
  sequence of short reads, zero reads and errors.
* `impl Write` (`writer`) likewise, with `write_all` as std writes it on top.
* `buf` is what the codec sees of `Buffer`. `bufcfg` gives the inline capacity and the
  octets (`junk`) found in fresh memory; theorems quantify over it. `holds b bs` says
  that a buffer is well-formed and contains `bs`.
* Raw memory (`ModelHeap`): blocks by address, an allocator that picks any address not in
  use or fails, outcomes `Done`/`Abort` (out of memory)/`Crash` (panic)/`UB`. Octets never written have some
  value the allocator chose: reading them is not `UB` here though it is in Rust; C54, C84 and C91 say where it can happen. Pointers are
  addresses of blocks with checked offsets; which reference a pointer was made from is the matter of
  `ModelBorrow`, alignment beyond this is not modelled. In the portable layout the order of the fields in the union is chosen (`ModelEndian` leaves it open),
  which the code cannot observe.
* Threads (`ModelThreads`, `SpecThreads`) interleave at single accesses to heap blocks. The fields of a buffer
  (and the octets of an inline one) are read when an operation begins and written when it returns: only the
  owner has them, or nobody writes them. The allocator synchronises itself, as `std` promises. Weak memory is not
  modelled; without races it cannot be observed.
* References (`ModelBorrow`): a function is the list of its reborrows and accesses (object, reference, octets). Both
  proposed aliasing models of Rust are run on every octet of every object: Stacked Borrows as of 2020 with the
  `*const` of a shared reference read-only, Tree Borrows with raw pointers as aliases of their references. The rules are
  restated as relations in `SpecBorrow` and `SpecGuard` (C78_rules_*). Both are run without and with protectors of the
  references that functions have as arguments (`Enter`/`Leave`); in trees these also forbid what would end a reference that
  was not used at that octet, which is more than the model does. Two-phase borrows and moves (a moved buffer stays the same object) are left out; a slice of a struct's field reborrows the
  octets of the field. In the portable layout the union is put before `len_`. A buffer is seen as inline or not, with
  length, capacity and block numbers; what is written is in the other models, and C78_views shows that the buffers of
  `ModelBufLE` and `ModelBufUE` are seen like this after any program.
* In `ModelTlvRaw` a pure computation on the octets of a value that would fail is `UB` (the
  code unwraps unchecked there). An iterator and its clone are two lists; the read of the
  contents is an arbitrary function that reports a count and writes octets (`io_claim`).
  Header octets are written after the header was read rather than one by one; a panic ends the
  run.  `ModelUnwind` does neither: octets are written as they are read, and a panic unwinds, dropping
  the buffer.  The user's reader there is any function of its state that writes a prefix of the memory it
  is handed and returns any count, fails, panics or does not return.
* `Serialize` / `Deserialize` impls are records of functions (dictionaries); generic
  impls are functions from dictionaries to dictionaries. `env` holds what differs between
  builds and runs: the buffer configuration, whether debug assertions are on, and where a hash table
  puts a new element. Collections are lists in iteration order: sorted for `BTree*`, any order
  for `Hash*`; keys have a lawful `Ord` or `Eq`.
* `laws E C S D` says that the dictionaries `S`, `D` implement the codec `C`. It is proved for
  the `provided` types and preserved by every generic impl and derive, so it holds at any nesting
  (`supported`). User types enter by satisfying `laws`.
* Contexts of errors are numbers in the model: even ones for DeserializeHelper, odd ones for derived
  code. `ModelText` gives their texts; C76 shows that different numbers have different texts, so nothing is lost.
  What `anyhow` prints (`{}` the outermost error, `{:#}` the chain) is modelled from its documentation.
  The text of a container's `try_from` names the type; the number does not.
* The implementations of a recursive type are dictionaries equal, call by call, to what the derive
  makes of themselves (`knot_ser`, `knot_de`). Theorems hold for all solutions; a solution exists
  and is unique. The Rust type is a Coq inductive type, converted to the tuple or choice of the derive.
* Derive macros: an attribute is a list of tokens (identifier, punctuation, literal, group),
  as `proc_macro2` delivers them; `syn::parse_str::<Path>` is a predicate on strings. The
  result of a macro is either a compile error (`None`) or the dictionary that the emitted code
  defines. Paths in attributes are resolved to what they stand for (a type with its
  dictionary, a function). Conversions and default functions return.
* anyhow: an error is a crate error, a foreign error with its chain of sources, or either under
  contexts; `chain` and `downcast_ref` as anyhow documents them.

## Per property plan

| id | what is modelled, how proved |
|---|---|
| C01-C03 | `parse_length`, `to_bytes`, `len`; iff-characterisation against `Spec.minimal_length`, error relation |
| C04-C07 | `Id::new`, `parse_id`, accessors, setters; against `Spec.identifier` |
| C08-C11 | `Contents::from_*`, `to_integer*`, `to_bool_*`; against `Spec.twos` / `Spec.shortest` |
| C12,C13,C16,C40,C41,C42,C46 | `Der`, `DerRef`, `BerRef`; against `Spec.der_tlv` |
| C14 | slice variable threaded as state; parse_mut proved, parse of DerRef/BerRef refuted by witness; the octets taken decide the failure (`stuck`), by locality of the parsers |
| C15 | depth-counter loop against inductive `Spec.ber_item` |
| C17,C18,C44 | in-place memmove model over byte lists with bounds checks; induction over histories |
| C19,C20,C48,C49 | raw layout model + refinement, induction over histories |
| C51-C54 | Der/Ber functions over the raw layouts, simulation by the octet-level model, induction over programs |
| C21-C23,C45,C47 | arbitrary readers, reader schedules |
| C24-C31,C36,C43 | serde dictionaries, laws preserved by each impl and derive |
| C32-C35,C50 | attribute model, derive semantics |
| C55-C58 | comparison and hash of the octets against the dictionary order; tag table; conversions |
| C59 | string types against all X.690 string forms (segments) |
| C60 | slice parsers against the whole grammar of X.690 8.1, mutual induction |
| C61 | recursive types: induction on the depth of the value and the length of the contents |
| C62 | collections item by item; insertion keeps the first of equal elements and the last of values |
| C63 | by mutual induction on `decoded`: results are values, and sizes add up (length octets are subadditive) |
| C64 | the attribute checks by position (C35), and a count of the fields not skipped |
| C65 | inversion of the error monad along the readers, once for DER and BER (`read_value`, `read_as`, `read_entry`) |
| C66 | encodings are self-delimiting (C01, C06), so decoding tells them apart |
| C67 | equal values item by item; a counterexample with a set of two booleans |
| C68 | runs with allocators that agree up to a size are the same; a header that asks for more |
| C48, C52-C54, C30 beyond the refutations | `SpecLimits`, `RawLimits`, `PropsLimits`: the outcome in each case the full statement fails, by running the raw code up to the fatal call; where a BER parse stops is a prefix `open_at` |
| C14, C29, C38, C59, C60 beyond the refutations | `LeftProofs` and `C14_exact`; `PropsEntries`: an entry of indefinite length has its end-of-contents octets among its contents, so unambiguity of values decides; `C38_exact`: by cases of the chain, the errors in it being smaller than it; `C60_exact`: from the equivalence for the parser |
| C69 | as C51-C54, for identifiers and contents; the pointer walks by induction on the leading octets |
| C70 | `fails` composes with `emits` under sequencing: one lemma for each loop that serialises parts, then induction on `partly` |
| C71 | evaluation of each piece of emitted code, with the variables of the method as an environment; induction on fields and variants |
| C72 | a Hoare logic over runs that own a buffer (`triple`): every way to end keeps the buffer representable, so it can be dropped |
| C73 | `covers`: a release function does what its dev counterpart does where that returns; `locked`: both parsers run in step until the end; wrapped sums end in the index check |
| C74 | the layouts follow the abstract buffer within the word's limits; histories run in step with it; lengths by arithmetic modulo the word; parsers and operations of `Der` and `Ber` step by step against those for 64 bits |
| C75 | Panic as the least result: with less stack, the same or aborted; values decoded on `k` calls have fewer than `k` levels; positive laws by induction on `k` |
| C76 | texts as strings, prefixes differ; decimal printing is injective (stdlib); the trail of contexts by induction on the wrapping; C65 gives the cases |
| C77 | operations as free-monad programs, equal to the functions of C19/C20; a program safe on its own blocks is safe among others; the memory in parts, one per thread and one for what is shared, as invariant over all interleavings |
| C78 | traces of reborrows and accesses per call, symbolic execution on each class of octets; a simulation lifts one call on new objects to calls on used ones, in both directions; induction over call sequences; exact conditions for what is refuted; the same with protectors, which forbid nothing else |
| C79 | case analysis on the conversion, induction over chains; positions by splitting at the ends of the range |
| C80 | `emits_or`: the right octets, or a panic if they are too many; `into`: what is written into a buffer is right or panics, whatever was announced; induction on the type; in the release profile two strings whose lengths sum to 2^(8w) as witness |
| C81 | the same outcome up to `OverFlow` for `UnterminatedBytes`, in the same contexts, carried through every bind; induction is that of the type, one theorem per constructor; equal at eight octets |
| C82 | the abstract constructors succeed exactly up to isize::MAX and the layouts refine them; above, `with_capacity` panics or the sum does; in the release profile the size modulo 2^64 is less than the header, whose octets are cut off or stored out of bounds |
| C83 | the same prefix is parsed from the slice and from the stream; each derivation of an error of the slice parser gives the one of the stream parser |
| C84 | two runs show what the specification says of each (C51, C73, C82, C72), and that determines the octets; `with_id_length` on two allocators that leave different octets is computed |
| C85 | the invariant of C51 through two more kinds of steps; a parse on raw memory leaves a buffer that refines one with the octets of the value; in the release profile it ends as in the dev profile (C73) |
| C86 | a parser on a reader that lists its calls runs as on the reader itself; each step adds calls that deliver octets, or one that ends the run; with C23, what was delivered is the value |
| C87 | serialisation is a sequence of `write_all` calls (C24, C25); induction on these and on the loop of `write_all` |
| C88 | the octets that disassemble, described by `loose_id`/`loose_length`; invariant *claims no more than it has*, kept by every edit in every layout; the exact out-of-range access otherwise |
| C89 | every write of a program refines laying its octets onto a list, or is refused as there; the contents buffer lies under the frame of the value while that is written, and is dropped after it; supported types are chunks (C24, C25) |
| C90 | the octets in the buffer are those the parser on a slice would have taken (`echo`), so it accepts them; then exactness (C23) says they are a value; the release profile by C73 |
| C91 | every step of the parsers ends as reader and octets in the buffer say (`det`), for all layouts at once; the refutation computes Der::parse and Ber::parse with two allocators |
| C92 | what `to_be` leaves in memory is big endian on both orders; `UE_on o first` follows the abstract buffer as `UE` does; programs and parsers by the lemmas on any layout that refines a buffer; the difference by computation |
| C93 | `tracks`: a parser on any honest reader does what it does on the slice of the octets it takes, also when it fails; then the loops of `Ber::parse` and `BerRef::parse` step by step; `read_der` and `read_ber` on top (`PropsStopSerde.v`) |
| C37-C39 | direct, with independent statement |

## Trusted base

Coq kernel; what `Print Assumptions` prints for each theorem ("Closed under
the global context" for all); the fidelity of `Model*.v` to the Rust text; the conventions above.

Evidence for the fidelity of the derive model: all 383 tests of bsn1_serde/tests/ser and
bsn1_serde/tests/de are in `RepoTestsSer` and `RepoTestsDe`. A script made them from the test
files: the attributes are the tokens of the file, the expected octets were computed from the
assertions of the test, without the model. All hold. The 175 unit tests of bsn1/src and bsn1_serde/src are in `RepoTestsUnit` and
`RepoTestsSrc`, translated by hand; long loops are thinned. All hold. The buffer tests run on both
raw layouts.

Not modelled: lexing and `syn`/`quote` token handling (texts of compile errors; of emitted code, only
the derives, as `expr`), `generics.rs` beyond the header (C71_header; a derive on a generic type is
the derive on its instances), the compiler's own errors on emitted code,
allocator internals, internals of `std` collections, `{:#?}` and the Debug output of errors,
the size of a stack frame (C75 counts nested calls of the
implementations of a recursive type; other types nest as deep as the type, and the BER parsers
are loops with a counter and do not recurse).
