# MVault in Rocq: design

## 1. Layout

| what | where |
|---|---|
| properties, in English | `properties.jsonl` (C01-C67) |
| status of each property, theorems | `MANIFEST.json` (generated from `tools/claims.txt` and the `P_*.v` files) |
| models of the code | `rocq/theories/*Model.v`, `Values.v` |
| vocabulary of the statements | `rocq/theories/*Spec.v` (definitions only) |
| the property theorems | `rocq/theories/P_*.v`: nothing but `Theorem ... Proof. exact lemma. Qed. Print Assumptions ...` and the `Example`s beside them |
| hypotheses are met | every theorem with hypotheses has an `Example` after it with a concrete, non-trivial instance (proofs in `Ex_*.v`) |
| lemmas | all other files: `Inv*.v` (invariants of every operation), `T_*.v` (one lemma `t_Cnn_...` per theorem), `*Proofs*.v` |
| wrong programs | `seeded/LOG.jsonl` |
| generators | `tools/gen_ex.py`, `gen_p.py`, `gen_manifest.py`: write `Ex_*.v`, `P_*.v`, `MANIFEST.json` (the generated files are committed) |

Names: `..._partial`: what is proved is weaker than the English claim; `..._refuted : exists ...`: the code violates the claim there (a
concrete witness, computed by `vm_compute`); the other theorems say what their doc comment says, which is the claim or an exact statement
stronger than the claim. Where the code violates a claim, besides the witness an *exact* theorem is proved that says what the code does
instead (e.g. `C05_setdata_effect_on_index`, `C16_generated_exact`, `C30_negative_read_iff`, `C44_move_exact`).

## 2. Trusted base

* Coq 8.16.1's kernel, including its virtual machine (`vm_compute` is used in examples and refutation witnesses). No kernel check is off.
* `Print Assumptions` is run under every theorem of every `P_*.v`: **each prints "Closed under the global context"**, except some of
  `P_Float.v` (C60, C61, C62), whose statements are about real numbers. Those list axioms of Coq's standard library, and no others:
  `ClassicalDedekindReals.sig_forall_dec`, `ClassicalDedekindReals.sig_not_dec`,
  `FunctionalExtensionality.functional_extensionality_dep`, `Classical_Prop.classic`. (A tool that lists the axioms of all *loaded* libraries, such as `coqchk -o`, also
  shows the fields of three opaque modules of Coq's standard library, which are module-type fields there and not assumptions of any theorem:
  `Coq.ssr.ssrunder.Under_rel.*`, loaded by std++, and `Coq.Reals.Rdefinitions.RbaseSymbolsImpl.*` and `RinvImpl.*`, the sealed
  implementation of the real numbers.)
* The libraries are Coq's standard library, std++ and, for C60-C62, Flocq (theorems only). No functors, module types, axioms, `Admitted` or obligations of our own.
* The models, read against /repo by hand; every definition cites the file and lines it models, with the simplifications it makes. Nothing is
  extracted or run. Section 3 says what is modelled, section 4 what is not.

## 3. What is modelled

| file | code |
|---|---|
| `Values.v` | stored values (`bool`, `std::string`, all integer types, an opaque family for other ordered types), type tags, the `<` of the trees |
| `MapModel.v` | `Map.h`: the multi / unique, ordered / unordered indexes of a key |
| `VaultModel.v` | `Vault`, `VaultRecord`, `VaultRecordRef`, `VaultRecordSet`, `VaultRequest`, `VaultParamInput`, the loading part of `ReadFile`: about 60 operations, `step : order -> world -> op -> option (world * out)` |
| `ResultModel.v` | `VaultOperationResult`: equality, texts of the codes, `Print` |
| `TraceModel.v` | `BackTrace/BackTrace.cpp`, `VaultOperationResult::SetOpResult`: the trace of calls of a debug build and what it prints |
| `StringsModel.v` | `Strings/ToString.h`, `Strings/FromString.h` for `bool`, integers (signed overflow is UB, unsigned wraps), strings |
| `FloatModel.v` | `ToString`/`FromString` of `float` and `double` on the IEEE numbers of Coq's `SpecFloat` |
| `UuidModel.v` | `Uuid/Uuid.cpp` |
| `CsvModel.v` | `CsvParser/CsvParser.cpp`, `CsvParser/StreamFileReader.cpp` (chunk buffer, negative reads) |
| `FileModel.v` | `Vault::SaveToFile`, `Vault::ReadFile` over file contents |
| `JsonModel.v` | `Strings/ToJson.cpp`, `ToJson` of references, vaults and sets, `ToStrings` |
| `PrintModel.v` | `PrintAsTable.h`, `Print`, `PrintVault`, `PrintRecord` |
| `SaverModel.v` | `DataSaver`, `DataContainer.h` (map and multi-map versions) on a heap of cells |
| `MutexModel.v` | `ReadWriteMutex`, `RecursiveReadWriteMutex`: labelled transition system, one step per statement, any number of threads |
| `LockModel.v` | locking skeleton of every API function (which locks in which order, what is read and written under them), on top of `MutexModel` |
| `MultiModel.v` | the same for any number of vaults in one thread: every vault its own mutex, the recursion counters shared; copy, assignment and move of vaults, callbacks of `SortBy` and `AddUniqueKey` that call any vault |
| `ConcModel.v` | threads calling one vault at the same time: step-by-step mutex, many small reads and writes per call |
| `LifeModel.v` | reference counter, validity flag and deletion of a record, step by step, among threads |

Modelling choices:

* **Memory.** A world has a heap of records (address -> record), of vault/set objects, and of references. A freed record is
  absent from the heap, a destroyed object is absent from the object map; any access through a stale pointer is the distinct
  outcome `UB` (`None`). Record addresses are never reused (simplification: an address comparison with a stale pointer is false);
  object addresses may be reused.
* **Unordered containers** iterate in an order given by an oracle, one per operation, required only to be a permutation. All
  theorems hold for every oracle. (Within one operation the same oracle orders the vault's and the sets' containers.)
* **Predicates and generator functions** passed by the user are arbitrary pure functions of the record's address and contents
  (and of the counter).
* **Locks** are omitted from the sequential model; `MutexModel`, `LockModel`, `ConcModel` and `LifeModel` are about threads. `ConcModel`
  uses the sequential `step` as the effect of a call that is alone, and C58 proves that the lock makes every call alone.
* The five lambda maps (`VaultRecordAdders`, `...Clearers`, `...Erasers`, `...Sorters`, `VaultKeyCopiers`) and `KeysTypes` always
  have the same domain and are modelled by one map from key to (type, captured default); `VaultHashMapStructure` and
  `VaultMapStructure` are always inserted and removed together and are modelled by one map from key to (hash index, tree index).

**Classes of histories.** "Every history" is the relation `reach b` of `Spec.v`, generated by `step` from the empty world with every fair
oracle. It excludes, by `allowed`, only operations listed there one by one with a comment. `b = false`, "wide": theorems hold of every
execution that has not run into undefined behaviour; excluded are moves of sets, moves of vaults that sets or references depend on, copies of
vaults with unique keys, reuse of an address something still mentions, and a few redirections of sets and references between two vaults.
`b = true`, "safe": Join/Exclude/Intersect/Union/Intersection, erasing through a set, `AddUniqueKey` with generator when records and sets
exist, over-long rows of files and ill-typed intervals are excluded too; C18_safe_programs_defined proves that no such program has undefined
behaviour. The exclusions are not convenience: `P_Refuted.v` has a program for each that breaks a claim.

## 4. What is not modelled

* What `addr2line` prints into the debug messages (`BackTrace.cpp`), the C API of
  the operating system (files are their contents; failing writes are not modelled), memory exhaustion, exceptions thrown by user callbacks,
  the values computed by callbacks that re-enter a vault (their locks are modelled: `MultiModel.v`), 64-bit overflow of counters and sizes.
* `float` and `double` as stored values are opaque ordered types; their texts are modelled on their own (`FloatModel.v`), assuming 32-bit `int`,
  binary32 and binary64, rounding to nearest in the type of the operands (no x87 excess precision, no fma contraction), exact `printf`, one NaN.
  `long double` is not modelled.
* User-defined types: only as an opaque totally ordered family. Types whose `operator<` is not a strict weak order (NaN) are outside.
* The iterator classes of `DataContainer`; iteration order of the containers there.
* Weak memory: the mutexes' atomics are sequentially consistent in the code, and C57 is about races, so interleavings are what C++ gives.
  `VaultRecord::RemoveRef` deletes the record (and its mutex) right after unlocking it; LifeModel takes for granted, as POSIX does, that this is
  allowed once no other thread holds or waits for the mutex.
* `VaultRequest` objects hold references to their operands; a stored `a && b` of temporaries dangles. The model has only trees that are alive.
* Known inexactness: a request through a set whose dynamic class was cleared to `VaultBase` takes the vault branch in the model.

## 5. Findings

Every `_refuted` theorem is one. The main ones, with the code:

* `SetData` and erasing a record remove *every* record that shares the old value from the ordered index (`Vault.hpp`, erase by value):
  C05_sharer_lost_refuted, C06_sharer_lost_refuted. C47 is the exact condition under which queries stay complete.
* `SetData` on a unique key always fails: the record's own old value is found as a duplicate (C08_unique_free_value_refuted).
* A failed `AddUniqueKey` without generator leaves an index without key; `PrintRecord`, and `Print` on a keyless vault, are then UB.
* `Join`/`Union`/`Intersection` do not register the set with the records: erased records stay in it as dangling pointers
  (C21_joined_set_refuted, C22_joined_set_refuted).
* Moved sets answer nothing (indexes are not moved); moved vaults leave references and sets behind at the old address (C25, C44).
* Vault copies lose uniqueness and updated defaults (C27). A foreign record can be smuggled into a set's `GetRecord` (C04).
* Intervals of differently typed bounds are type confusion (C10). Limit 0 means 1 in `GetRecords`/`EraseRecords` (C11).
* CSV: carriage returns and trailing empty fields are lost, `LF LF` swallows a line, the chunked reader can read before its buffer (C28-C30);
  rows with too many fields are UB, line numbers are wrong after blank lines (C35); `SaveToFile` of a vault without keys is UB (C34).
* `FromString`: the minimum of signed types overflows, 8-bit integers are characters (C32, C33). JSON is never escaped (C36).
* Floats: `FromString` collects both parts in `int`s, so 3000000000 or ten digits after the point are signed overflow; `0.3` is not read as the
  nearest double; `.` and `-.` are accepted as zero; a float between 8 and 16 can change its text when saved and loaded (C60, C62).
* `DataSaver`: custom delete functions are not called by the destructor and are shared by copies (C52); an emptied one keeps its type (C50).
* `ReadWriteMutex`: a spurious wake-up lets a writer in beside readers (C39). Lock counters are thread-local but shared by *all* mutexes (C41).
* Threads: `VaultRecordRef::ToJson/ToStrings/PrintRecord` lock record then vault and can deadlock with `SetData`/`EraseRecord`, and with a reader of the record plus any writer (C56; exactly when: `DumpSpec.standoff`);
  requests and `Intersection` write the set of dependent sets and their target under a *read* lock, `Clear` and `==` of sets lock nothing (C57).
* Several vaults: `A = B` locks A and then takes no lock on B, because the thread's counter is already 1; a write call on B from inside a read
  call on A unlocks B's readers without having locked them and can enter beside a reader; moving from a vault empties it under a read lock
  (C64). Yet the counters always come back to 0 (C65) and no order of locking vaults deadlocks (C63).
* Debug trace: the public `PrintBackTrace()` takes the front of an empty vector when no traced function is in progress (always, in a release
  build); 1021 nested calls read past the array of return addresses (C66_undefined_iff). Not modelled: the program name passed to `addr2line` is
  read from a buffer that `readlink` leaves unterminated.

## 6. Method, per property

Step theorems are about one operation from any reachable state; invariants are by induction over histories (`Inv.v`: one invariant of worlds,
preserved by each operation in `Inv*.v`, assembled in `Classes.v`).

* C01 invariant (indexes of unique keys are sound and complete). C02, C03 step theorems from reachable states, with frame.
* C04 index soundness invariant + exact answer of each query. C05, C06: refuted; exact effect on the indexes.
* C07 step theorem with frame. C08 exact answer; "accepted iff" refuted. C09 list reasoning on sorted index lists. C10 induction on request trees; `C10_undefined_iff` (ExactSpec.v: `mixes`) says exactly which requests are undefined behaviour.
* C11 list reasoning. C12 sortedness invariant of the tree index, stability as an insertion lemma. C13 fold over the history.
* C14-C17 step theorems. C18, C19 invariants and, for definedness, progress of every safe operation. C20 direct.
* C21, C22, C24 invariants over safe histories; and for every set of every reachable state, joined ones included, exactly when it follows an update or an erasure: when the record is registered with it (T_Follow.v). C23 step theorems. C25 exact effects. C26 step theorems. C27 copy; independence over later histories.
* C28, C29, C55 induction on texts through the parser's loop; C28, C29 exactly, for all rows, through a specification of what one written row
  turns into (`as_rows`). C30 simulation of the chunked by the whole-file reader. C31 measure.
* C32, C33 induction on digit lists; `C32_roundtrip_iff`, `C32_otherwise`: exactly which values come back, are rejected, are undefined. C34, C35 composition of C28, C32 and the vault model.
* C36 an independent JSON parser (`JsonSpec.v`) applied to the output. C37 exact text of tables. C38 bit-level reasoning.
* C39-C41 invariants of the transition system, any number of threads. C42 prefix semantics. C43 typing invariant. C44, C45 exact effects, invariant.
* C46, C47 completeness invariants of indexes over histories. C48, C49 step theorems and a frame over all operations.
* C50-C53 refinement of DataSavers and containers to maps from names to values; heap ownership invariant. C54 step theorems over all operations.
* C56 a lock-order argument: from every reachable state a schedule that finishes is constructed; with printing (LockDumps*.v) under the condition that no standoff exists, and from every standoff a schedule that sticks is constructed, so the condition is exact. C57 invariant: who may be inside; and exactly: every access of every call is in the table `uses` (RaceSpec.v) or protected, an invariant shows that a race is between two entries that do not exclude each other, and for any two such entries a schedule that brings both threads to their accesses is constructed (LockRaces*.v).
* C58 forward simulation to a sequential history, linearization point inside the lock. C59 invariant of counter, flag and threads.
* C63 the sum, over the vaults somebody waits for, of their reader counters is written as a sum over threads; if everybody waited it would be
  positive vault by vault and not positive thread by thread. C64 locks on shared vaults are outermost, so their counters are right; then as C57.
* C66 induction on trees of calls.
* C67 case analysis over all operations with the frame part of each operation's specification (InvAddKey, InvVault, InvErase2, InvSets3), and
  the invariant that a set registered with a record is bound to the record's vault; induction on histories.
  C65 the same invariant at the end.
* C60, C62 Flocq's error bounds for every operation of the digit loop, relative errors composed by induction on the digits. C61 exact rational arithmetic.

## 7. Wrong programs

`seeded/LOG.jsonl`. Two methods. (a) Edit a definition, rebuild everything, list the theorems whose proofs break (ids M..). A proof that breaks
may only be a brittle proof, so (b): edit a definition and prove, in the edited development, that the *unchanged statement* of the theorem is
false (`Lemma bad : forall H : <statement>, False`, closed under the global context): then no proof of it can exist (all other ids). Mutants that
survived led to new or stronger theorems; these are listed in `theorems_tightened`.
