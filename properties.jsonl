{"id": "C01", "title": "Unique keys stay unique", "statement": "After any history of key, record, set and reference operations on a vault, no two records of the vault hold equal values for a key listed by GetUniqueKeys().", "quantifier": "every finite sequence of API operations on vaults, record sets and references, every hash-iteration order", "why_tests_cant": "A violation may need an arbitrary interleaving of create, set, erase, add-key and file loads; tests sample a few histories.", "anchors": ["Source/Vault.hpp: Vault::AddKey, Vault::SetDataToRecord", "Source/Vault.cpp: Vault::CreateRecord, Vault::ReadFile"]}
{"id": "C02", "title": "Failed CreateRecord changes nothing", "statement": "If CreateRecord reports failure (wrong key, wrong type or duplicate unique value) then the vault, its indexes, its sets and all references are exactly as before and nothing leaks.", "quantifier": "every reachable state and every parameter list", "why_tests_cant": "Every position of the failing parameter or unique key has its own roll-back path.", "anchors": ["Source/Vault.cpp: Vault::CreateRecord"]}
{"id": "C03", "title": "Successful CreateRecord stores exactly the given values", "statement": "If CreateRecord succeeds then exactly one new record exists; it holds the default of each key overridden by the last parameter for that key, it is found by GetRecord/requests/sorting on every key, and no other record changes.", "quantifier": "every reachable state, every parameter list whose keys and types are right", "why_tests_cant": "Quantifies over all schemas, values and prior contents.", "anchors": ["Source/Vault.cpp: Vault::CreateRecord", "Source/Vault.hpp: Vault::AddKey (adder)"]}
{"id": "C04", "title": "Queries only return current records with a matching value", "statement": "In every reachable state, each record returned by GetRecord, GetRecords, a request or GetSortedRecords on a vault is valid, belongs to that vault and currently stores a value for the key that satisfies the query; no record is returned twice.", "quantifier": "every history of operations, every query", "why_tests_cant": "Stale index entries only show after particular update sequences.", "anchors": ["Source/Vault.hpp: GetRecord, GetRecords, RequestRecordsSet, SetDataToRecord", "Source/Vault.cpp: GetSortedRecords"]}
{"id": "C05", "title": "SetData keeps every other record findable", "statement": "After SetData on one record, each other record is still found by equality, range and sorted queries on its own value.", "quantifier": "every reachable state, every record, key and new value", "why_tests_cant": "Depends on which records share the old value; needs all value-sharing patterns.", "anchors": ["Source/Vault.hpp: Vault::SetDataToRecord"]}
{"id": "C06", "title": "Erasing a record keeps every other record findable", "statement": "After EraseRecord/EraseRecords, each remaining record is still found by equality, range and sorted queries.", "quantifier": "every reachable state, every erased record", "why_tests_cant": "Depends on which records share values with the erased one, for each key.", "anchors": ["Source/Vault.hpp: Vault::AddKey (eraser), EraseRecord, EraseRecords", "Source/Vault.cpp: Vault::RemoveRecord"]}
{"id": "C07", "title": "Read your write", "statement": "After a successful SetData(key, v) through a reference, GetData(key) through any valid reference to the record returns v, and every other (record, key) value is unchanged.", "quantifier": "every reachable state, every reference, key, value", "why_tests_cant": "Frame condition over all records and keys.", "anchors": ["Source/VaultRecordRef.hpp: SetData, GetData", "Source/Vault.hpp: SetDataToRecord"]}
{"id": "C08", "title": "Rejected SetData changes nothing; accepted iff allowed", "statement": "SetData with an unknown key, wrong type, or invalid reference reports the matching code and leaves all state unchanged; for a unique key it is accepted exactly when no other record holds the new value.", "quantifier": "every reachable state and argument", "why_tests_cant": "Needs every combination of old value, new value and other records' values.", "anchors": ["Source/Vault.hpp: SetDataToRecord"]}
{"id": "C09", "title": "Range requests are exact", "statement": "RequestEqual/Greater/GreaterOrEqual/Less/LessOrEqual/Interval without limit return exactly the indexed records whose value satisfies the comparison and the predicate; inverted or empty intervals return nothing and no iterator runs past the end.", "quantifier": "every index content, every bound, every inclusion flag, every predicate", "why_tests_cant": "Boundary behaviour with duplicates over all sizes.", "anchors": ["Source/Vault.hpp: RequestRecordsSet"]}
{"id": "C10", "title": "Logical requests compute boolean combinations", "statement": "Request(r) for any And/Or tree over comparison leaves returns the records satisfying the boolean combination, including when the interval shortcut is taken, and an ill-keyed or ill-typed leaf yields an error and an empty set.", "quantifier": "every request tree, every vault content", "why_tests_cant": "Trees are unbounded; the shortcut is taken only for particular shapes.", "anchors": ["Source/VaultRequest.hpp: VaultRequest::VaultRequest, Request", "Source/Vault.hpp: Vault::Request"]}
{"id": "C11", "title": "Amount limits are respected", "statement": "A request, GetRecords, EraseRecords or GetSortedRecords called with a limit n handles at most n records, and exactly min(n, matches) when there is no predicate.", "quantifier": "every n, every content", "why_tests_cant": "All n including 0 and beyond size.", "anchors": ["Source/Vault.hpp: RequestRecordsSet, GetRecords, EraseRecords", "Source/Vault.cpp: GetSortedRecords, SortBy"]}
{"id": "C12", "title": "Sorted output is sorted, stable and reversible", "statement": "GetSortedRecords(key) lists records in non-decreasing value order, equal values in index insertion order; the reverse listing is the exact reversal; a limit gives a prefix; SortBy visits the same sequence and stops at the first false.", "quantifier": "every history, every key, every limit, every callback", "why_tests_cant": "Stability and order over arbitrary histories.", "anchors": ["Source/Vault.cpp: GetSortedRecords, SortBy", "Source/Vault.hpp: AddKey (sorter)"]}
{"id": "C13", "title": "GetKeys reports keys in creation order", "statement": "GetKeys lists exactly the existing keys without duplicates in the order they were added, minus removed keys; IsKeyExist, GetKeyType and GetUniqueKeys agree with it.", "quantifier": "every history of AddKey, AddUniqueKey, RemoveKey, DropVault", "why_tests_cant": "Arbitrary add/remove histories.", "anchors": ["Source/Vault.cpp: GetKeys, RemoveKey, IsKeyExist", "Source/Vault.hpp: AddKey"]}
{"id": "C14", "title": "RemoveKey removes the key everywhere and nothing else", "statement": "After RemoveKey(k) the key is unknown to the vault, its records and its sets, and all other keys, values and lookups are unchanged.", "quantifier": "every reachable state and key", "why_tests_cant": "Frame condition over all other keys, records and sets.", "anchors": ["Source/Vault.cpp: RemoveKey"]}
{"id": "C15", "title": "AddKey gives every record the default and rejects duplicates", "statement": "AddKey(k,d) on a new key gives every existing record value d and indexes all of them; on an existing key it reports DuplicateKey and changes nothing.", "quantifier": "every reachable state, key and default", "why_tests_cant": "All sizes and schemas.", "anchors": ["Source/Vault.hpp: AddKey"]}
{"id": "C16", "title": "AddUniqueKey is all-or-nothing", "statement": "AddUniqueKey succeeds only if the generated values are pairwise distinct, in which case each record holds its generated value; otherwise it fails and the vault is unchanged.", "quantifier": "every reachable state, every generator function", "why_tests_cant": "All generator functions and record counts; partial failures.", "anchors": ["Source/Vault.hpp: AddKey, AddUniqueKey"]}
{"id": "C17", "title": "UpdateKey affects only future records", "statement": "UpdateKey(k,d) changes no existing record; later CreateRecord without k uses d; GetKeyValue(k) returns d; unknown, wrongly typed and unique keys are rejected without change.", "quantifier": "every reachable state, key and default", "why_tests_cant": "Mixing updates and creations arbitrarily.", "anchors": ["Source/Vault.hpp: UpdateKey, GetKeyValue", "Source/Vault.cpp: CreateRecord"]}
{"id": "C18", "title": "References never dangle and records never leak", "statement": "In every reachable state each non-empty reference points to an allocated record, a record is freed exactly when it left its vault and the last reference to it is gone, and no reference operation touches freed memory.", "quantifier": "every history of create, erase, drop, reference copy/move/reset/destroy", "why_tests_cant": "Use-after-free and leaks need specific histories.", "anchors": ["Source/VaultRecord.cpp: AddRef, RemoveRef, Invalidate", "Source/VaultRecordRef.cpp: SetRecord, operator=, Reset, ~VaultRecordRef"]}
{"id": "C19", "title": "References to removed records become invalid", "statement": "Once a record is erased (by value, by reference, by DropData or DropVault) every reference to it reports IsValid()==false and Get/SetData through it report DataRecordNotValid, forever; references to other records are unaffected.", "quantifier": "every history", "why_tests_cant": "All later histories.", "anchors": ["Source/Vault.cpp: RemoveRecord, DropData, DropVault", "Source/VaultRecordRef.cpp: IsValid"]}
{"id": "C20", "title": "Reference equality is an equivalence", "statement": "VaultRecordRef == is reflexive, symmetric and transitive, != is its negation, and two valid references are equal iff they denote the same record.", "quantifier": "all pairs/triples of references in all states", "why_tests_cant": "All combinations of null, invalid and valid references.", "anchors": ["Source/VaultRecordRef.cpp: operator==, operator!="]}
{"id": "C21", "title": "Record sets follow updates of their records", "statement": "After SetData on a record through a vault reference, every set holding the record finds it under the new value and not under the old one.", "quantifier": "every history building sets by requests, AddRecord, copying, joining", "why_tests_cant": "Sets built by different routes register differently.", "anchors": ["Source/Vault.hpp: SetDataToRecord", "Source/VaultRecord.hpp: UpdateDependentSets", "Source/VaultRecordSet.cpp: AddRecord, CopySet, Join"]}
{"id": "C22", "title": "Record sets follow erasure from the vault", "statement": "After a record is erased from its vault no set of that vault contains it in Size, CheckRecord, lookups or sorted output, and no set keeps a pointer to freed memory.", "quantifier": "every history", "why_tests_cant": "As C21.", "anchors": ["Source/VaultRecord.cpp: RemoveFromDependentSets", "Source/VaultRecordSet.cpp: Join, Intersection"]}
{"id": "C23", "title": "Set algebra", "statement": "Join, Exclude, Intersect, Union, Intersection produce exactly the union, difference, intersection of the operands' records, leave the other operands unchanged, and report an error without change for invalid, foreign or identical operands; set == is equality of parent and contents.", "quantifier": "all pairs of sets in all states", "why_tests_cant": "All set contents.", "anchors": ["Source/VaultRecordSet.cpp: Join, Exclude, Intersect, Union, Intersection, operator=="]}
{"id": "C24", "title": "Removing from a set leaves the vault untouched", "statement": "RemoveRecord/RemoveRecords/Clear/Reset on a set never erase, invalidate or change records of the vault, and the removed record does not come back into the set.", "quantifier": "every reachable state, every set and record", "why_tests_cant": "Depends on later updates of the removed record.", "anchors": ["Source/VaultRecordSet.cpp: RemoveRecord, Clear, Reset", "Source/VaultRecordSet.hpp: RemoveRecord, RemoveRecords"]}
{"id": "C25", "title": "Copying and moving sets", "statement": "A copied set has the same records and answers every query like the original; a moved-to set answers every query like the original did.", "quantifier": "every set, every query", "why_tests_cant": "All queries on all contents.", "anchors": ["Source/VaultRecordSet.cpp: CopySet, MoveSet"]}
{"id": "C26", "title": "DropData empties data but keeps keys; DropVault empties all", "statement": "After DropData the vault and all its sets are empty, keys/types/defaults are unchanged and the vault is usable; after DropVault it equals a fresh vault and its sets are detached.", "quantifier": "every reachable state", "why_tests_cant": "All prior histories.", "anchors": ["Source/Vault.cpp: DropData, DropVault"]}
{"id": "C27", "title": "Vault copies are faithful and independent", "statement": "A copied vault has the same keys (types, defaults, uniqueness), and records with the same values under fresh identities; later changes of either do not affect the other.", "quantifier": "every reachable state, all later histories", "why_tests_cant": "Independence over all later histories.", "anchors": ["Source/Vault.cpp: Vault(const Vault&), operator="]}
{"id": "C28", "title": "CSV field round trip", "statement": "A row of fields written with the CSV writer and read back with the parser yields the same fields.", "quantifier": "every row over all byte strings", "why_tests_cant": "All byte strings including quotes, separators and line breaks.", "anchors": ["Source/CsvParser/CsvParser.cpp: FormatStringToCsv, GetNextVector"]}
{"id": "C29", "title": "CSV rows keep their field count", "statement": "Reading back a written row yields as many fields as were written, also when fields are empty.", "quantifier": "every row", "why_tests_cant": "All positions of empty fields.", "anchors": ["Source/CsvParser/CsvParser.cpp: GetNextVector"]}
{"id": "C30", "title": "Chunked file reading equals whole-file reading", "statement": "For every file, reading through the 4096-byte chunk path delivers the same character sequence, look-ahead and end indication as reading the whole file.", "quantifier": "every file content and size", "why_tests_cant": "Chunk-boundary alignments of arbitrarily large files.", "anchors": ["Source/CsvParser/StreamFileReader.cpp"]}
{"id": "C31", "title": "CSV parsing terminates and consumes input", "statement": "Each GetNextVector call consumes at least one character unless at the end; repeated calls terminate; parsing is a function of the remaining text.", "quantifier": "every input text", "why_tests_cant": "All malformed inputs.", "anchors": ["Source/CsvParser/CsvParser.cpp: GetNextVector"]}
{"id": "C32", "title": "Value/string round trip", "statement": "FromString(ToString(v)) returns v for every supported value.", "quantifier": "all booleans, all integers of every width, all strings", "why_tests_cant": "2^64 values.", "anchors": ["Source/Strings/ToString.h", "Source/Strings/FromString.h"]}
{"id": "C33", "title": "Malformed numbers are rejected without effect", "statement": "FromString to an integer type accepts exactly optional '-' followed by at least one digit; otherwise it returns false and leaves the destination unchanged; accepted values are the decimal value reduced to the type.", "quantifier": "all byte strings", "why_tests_cant": "Infinite input space.", "anchors": ["Source/Strings/FromString.h"]}
{"id": "C34", "title": "Save and load round trip", "statement": "SaveToFile followed by ReadFile into a vault with the same keys recreates the same multiset of records.", "quantifier": "every vault content", "why_tests_cant": "All contents, separators and key selections.", "anchors": ["Source/Vault.cpp: SaveToFile, ReadFile"]}
{"id": "C35", "title": "ReadFile reports exactly the bad lines", "statement": "ReadFile loads every well-formed row and lists each rejected row once with its 1-based file line number and offending key, whatever the file content, without undefined behaviour.", "quantifier": "every file content", "why_tests_cant": "All malformed files.", "anchors": ["Source/Vault.cpp: ReadFile, GetErrorsInLastReadedFile"]}
{"id": "C36", "title": "JSON output is well-formed and faithful", "statement": "ToJson of records and vaults yields syntactically valid JSON from which keys and values can be recovered.", "quantifier": "every content, every option", "why_tests_cant": "All strings.", "anchors": ["Source/Strings/ToJson.cpp", "Source/VaultRecordRef.cpp: ToJson", "Source/Vault.cpp: ToJson"]}
{"id": "C37", "title": "Printed tables are aligned", "statement": "All lines printed by Print have the same display width and every cell shows the record's value.", "quantifier": "every content and key selection", "why_tests_cant": "All contents.", "anchors": ["Source/Vault.cpp: Print", "Source/Strings/PrintAsTable.h"]}
{"id": "C38", "title": "UUIDs are well-formed version 4", "statement": "GenerateUuid always returns 36 characters, lower-case hex groups 8-4-4-4-12, version digit 4 and variant digit 8..b.", "quantifier": "every pair of 64-bit random numbers", "why_tests_cant": "2^128 inputs.", "anchors": ["Source/Uuid/Uuid.cpp"]}
{"id": "C39", "title": "Readers-writer exclusion", "statement": "A writer holding ReadWriteMutex excludes all readers and other writers.", "quantifier": "every number of threads and every interleaving", "why_tests_cant": "Schedules.", "anchors": ["Source/ReadWriteMutex.cpp: ReadWriteMutex"]}
{"id": "C40", "title": "Readers-writer mutex does not deadlock", "statement": "In every reachable state of ReadWriteMutex used with balanced lock/unlock, if some thread is waiting then some thread can take a step.", "quantifier": "every number of threads and every interleaving", "why_tests_cant": "Schedules; lost wake-ups.", "anchors": ["Source/ReadWriteMutex.cpp"]}
{"id": "C41", "title": "Recursive mutex nests correctly", "statement": "RecursiveReadWriteMutex lets a thread nest read and write locks in any order, releases the underlying lock exactly at the outermost unlock, and locks on different mutexes are independent.", "quantifier": "every nesting sequence, several mutexes", "why_tests_cant": "All nestings.", "anchors": ["Source/ReadWriteMutex.cpp: RecursiveReadWriteMutex"]}
{"id": "C42", "title": "Multi-value SetData", "statement": "SetData({k1:v1,...}) applies the assignments in order, stops at the first failing one and reports it; if it fails nothing has been changed.", "quantifier": "every parameter list, every state", "why_tests_cant": "All failing positions.", "anchors": ["Source/VaultRecordRef.cpp: SetData(params)"]}
{"id": "C43", "title": "Type safety", "statement": "No operation ever reads a stored value at a type other than the stored one: in all reachable states each record holds for each key a value of the key's type and any access at another type reports WrongType.", "quantifier": "every history", "why_tests_cant": "All histories mixing types and keys.", "anchors": ["Source/Vault.hpp", "Source/VaultRecordRef.hpp: GetData"]}
{"id": "C44", "title": "Vault moves keep records, references and sets usable", "statement": "After moving a vault, the new vault has the old one's keys and records, and existing references and sets work with the new vault.", "quantifier": "every reachable state", "why_tests_cant": "All histories.", "anchors": ["Source/Vault.cpp: Vault(Vault&&), operator=(Vault&&)"]}
{"id": "C45", "title": "Sets know whether their parent lives", "statement": "GetIsParentVaultValid() of a set is true iff the vault it was filled from still exists and was not dropped; on an invalid set every query reports ParentVaultNotValid or is empty.", "quantifier": "every history", "why_tests_cant": "All orders of destruction.", "anchors": ["Source/VaultRecordSet.cpp: GetIsParentVaultValid, Reset", "Source/Vault.cpp: DropVault, ~Vault"]}
{"id": "C46", "title": "Unique keys are always completely indexed", "statement": "In every reachable state every record of a vault is found under its own value of each key listed by GetUniqueKeys(), by equality and in sorted order, and under no other value; the same holds of every set filled from the vault.", "quantifier": "every history of operations (without vault/set moves and copies of vaults with unique keys), every vault, every unique key, every record", "why_tests_cant": "The loss of index entries after updates and erasures depends on the whole history; no finite set of histories covers it.", "anchors": ["Source/Vault.hpp: Vault::SetDataToRecord, VaultRecordErasers, VaultRecordAdders", "Source/Vault.cpp: CreateRecord, EraseRecord"]}
{"id": "C47", "title": "Queries are complete while shared values are left alone", "statement": "From the moment a key is added, every request, GetRecords and GetSortedRecords on it answers by the records' current values (exactly the records that satisfy the query, each once), for as long as no record is updated or erased whose value of that key is shared by another record that stays.", "quantifier": "every history, vault, key, request tree, predicate and iteration order of the unordered containers", "why_tests_cant": "An invariant over unbounded histories; C05/C06 show that it fails as soon as the condition is violated once.", "anchors": ["Source/Vault.hpp: Vault::AddKey, Vault::SetDataToRecord, VaultRecordErasers, Vault::RequestRecords", "Source/Vault.cpp: GetSortedRecords", "Source/VaultRequest.hpp"]}
{"id": "C48", "title": "Reference variables are assigned exactly", "statement": "Copying a VaultRecordRef makes the target denote what the source denotes, moving it does the same and empties the source, Reset empties it, destruction ends it; GetRecords and GetSortedRecords put the i-th listed record into the i-th reference; a reference variable that is not given to an operation to be assigned is never redirected or emptied by it, whatever happens to vaults, records and sets.", "quantifier": "every state reached by a history of operations (frame: every state), every reference variable, every operation including moves and copies of vaults and sets", "why_tests_cant": "Aliasing between arbitrarily many references, self-copies and every kind of operation; the frame part ranges over all operations and all references.", "anchors": ["Source/VaultRecordRef.cpp: SetRecord, operator=, Reset, destructor", "Source/Vault.hpp: GetRecords", "Source/Vault.cpp: GetSortedRecords"]}
{"id": "C49", "title": "Getters answer for the current state", "statement": "GetKeys, GetUniqueKeys and IsKeyExist of a valid set answer for its vault, Size counts its members (and for a vault its records: +1 per accepted CreateRecord, minus the erased records per erasure), CheckRecord tells whether the denoted record is in the set; GetKeyValue of a vault succeeds exactly for existing non-unique keys asked at their type and then gives the value a new record would hold; a set's GetKeyValue accepts and rejects like its vault's (its value may be stale, see C17).", "quantifier": "every state reached by a history without moves and copies of unique-key vaults (set key types and values: safe histories), every vault, set, key, type, reference", "why_tests_cant": "The answers depend on the whole history of keys, fills and erasures.", "anchors": ["Source/Vault.cpp: GetKeys, GetUniqueKeys, IsKeyExist, GetKeyType, Size", "Source/Vault.hpp: GetKeyValue", "Source/VaultRecordSet.cpp: CheckRecord, Size, GetKeys", "Source/VaultRecordSet.hpp: GetKeyValue"]}
{"id": "C50", "title": "A DataSaver gives back exactly the value it holds", "statement": "After any sequence of constructions, copies, assignments (also to itself), swaps, SetData, SetDataFromString, ResetData and destructions, each DataSaver that holds a value gives that value back through GetData under its own type and under no other type, Str gives the value's text and GetDataType its type; one that holds nothing refuses GetData for every type and reports no type; an operation never changes what another DataSaver answers; SetDataFromString is undefined exactly on an empty DataSaver or an overflowing number, and otherwise reports whether the text was read.", "quantifier": "every sequence of operations over any number of DataSaver variables, every value and requested type", "why_tests_cant": "The type-erased pointer and five function pointers must agree after every interleaving of copies, resets and overwrites.", "anchors": ["Source/DataSaver.h: SetData, GetData", "Source/DataSaver.cpp: operator=, ResetData, Swap, SetDataFromString, Str, GetDataType"]}
{"id": "C51", "title": "DataSavers never share, leak or free twice", "statement": "After any sequence of operations on DataSavers, every heap object made by them belongs to exactly one DataSaver that holds it, every DataSaver that holds a value owns exactly one live object with that value, no operation frees or reads an object that is not there or has another type, and when the last DataSaver is gone no object is left.", "quantifier": "every sequence of operations over any number of DataSaver variables", "why_tests_cant": "Ownership errors (double free, leak, use after free) depend on the order of copies, self-assignments and overwrites; tests see only the orders they run.", "anchors": ["Source/DataSaver.h: SetData", "Source/DataSaver.cpp: operator=, destructor, ResetData, Swap"]}
{"id": "C52", "title": "Custom delete functions run once when the value goes", "statement": "The custom delete function given with a value is called exactly once for it, with a pointer to that value, when the value is cleared by ResetData or its DataSaver is destroyed, and never otherwise.", "quantifier": "every sequence of operations over any number of DataSaver variables, every custom delete function", "why_tests_cant": "Counting the calls needs all ways in which a value can be copied, overwritten and destroyed.", "anchors": ["Source/DataSaver.cpp: ResetData, destructor", "Source/DataSaver.h: SetData (customDeleteFunc)"]}
{"id": "C53", "title": "The data containers store exactly what was put in", "statement": "DataHashMap and DataMap behave as maps from names to values of any type: AddData keeps the value a key already has, SetData replaces or adds, SetDataFromDataSaver and GetDataSaver copy, EraseData removes one element, Clear all; Size, IsData, GetData (by type), GetDataAsString and GetAllData answer for the current map. DataMultiHashMap and DataMultiMap do the same with several elements per key. Elements are independent copies; temporaries and erased elements leave nothing behind; custom delete functions are called by EraseData only; the only undefined operation is reading text into an element without a value or an overflowing number.", "quantifier": "every sequence of operations on a container and any number of DataSaver variables, every choice of the element find returns among equal keys", "why_tests_cant": "Contents, ownership and choice among equal keys depend on the whole history.", "anchors": ["Source/DataContainer.h: DataContainer::AddData, AddDataFromDataSaver, SetData, SetDataFromDataSaver, SetDataFromString, GetData, GetDataSaver, GetDataAsString, IsData, EraseData, Clear, Size, GetAllData"]}
{"id": "C54", "title": "Operation results tell what happened", "statement": "Whatever operation is called, IsOperationSuccess is true exactly if ResultCode is Success; operations by key report the requested key and type, answer WrongKey exactly if the key does not exist and WrongType exactly if it has another type, which they report; an operation that reports failure has changed nothing (a failed request leaves its target set empty, a failed GetRecord its reference, a failed AddUniqueKey may leave an unused index; SetData of several values is C42) and never the data of a vault; two results compare equal exactly if all fields agree; every code has its own non-empty text.", "quantifier": "every operation in every reachable state; every pair of results and codes", "why_tests_cant": "Quantifies over all operations, arguments and states.", "anchors": ["Source/VaultOperationResult.h: VaultOperationResultCode, VaultOperationResult", "Source/VaultOperationResult.cpp: ResultCodeString, operator==", "Source/Vault.hpp: GetRecord, GetRecords, EraseRecord, EraseRecords, UpdateKey, AddKey", "Source/Vault.cpp: CreateRecord", "Source/VaultRecordSet.cpp: AddRecord, Join, Exclude, Intersect, Union, Intersection"]}
{"id": "C55", "title": "CSV files of other programs are read correctly", "statement": "A file whose lines are comma-separated fields, each bare or quoted with doubled quotes, with line ends LF, CR or CR LF in any mixture and an optional last line end, is read as exactly these lines and fields (an empty last field of a line is not delivered), whatever the quoted fields contain.", "quantifier": "every such file, every choice of quoting and of line ends, every separator that is not a quote or line end; no blank lines other than ones ended by CR LF", "why_tests_cant": "All contents, quotings and mixtures of line ends, files of any size.", "anchors": ["Source/CsvParser/CsvParser.cpp: GetNextVector", "Source/CsvParser/StreamFileReader.cpp"]}
{"id": "C56", "title": "Threads never block each other for good", "statement": "Any number of threads may call the functions of one vault, of its records' references and of its record sets at the same time: from every state they can reach, all of them can still return from all their calls; no two of them wait for each other's locks.", "quantifier": "every number of threads, every program of calls of each, every set of records and record sets the calls meet, every interleaving of their steps", "why_tests_cant": "A deadlock appears in some interleavings only; the number of interleavings of even two calls is astronomic.", "anchors": ["Source/Vault.hpp, Source/Vault.cpp, Source/VaultRecordRef.cpp, Source/VaultRecordRef.hpp, Source/VaultRecordSet.cpp, Source/VaultRecordSet.hpp, Source/VaultRecord.cpp: every use of VaultRecordSetMutex, VaultMutex, VaultRecordMutex", "Source/ReadWriteMutex.cpp: RecursiveReadWriteMutex"]}
{"id": "C57", "title": "Threads never race on the data", "statement": "Any number of threads may call the functions of one vault, of its records' references and of its record sets at the same time: no two threads ever access the same part of the vault, of a record or of a record set at the same time while one of them writes it.", "quantifier": "every number of threads, every program of calls of each, every set of records and record sets the calls meet, every interleaving of their steps", "why_tests_cant": "A data race is a property of all interleavings and usually has no visible effect in a test.", "anchors": ["Source/Vault.hpp: RequestRecords, Request, EraseRecord, EraseRecords, AddKey, SetDataToRecord", "Source/Vault.cpp: CreateRecord, DropData, DropVault, ReadFile, GetErrorsInLastReadedFile", "Source/VaultRecordRef.cpp, Source/VaultRecordRef.hpp, Source/VaultRecord.cpp", "Source/VaultRecordSet.cpp: AddRecord, Clear, Reset, Join, operator=="]}
{"id": "C58", "title": "Threads sharing a vault cannot be told from threads taking turns", "statement": "Any number of threads may call the functions of one vault at the same time (AddKey, AddUniqueKey, UpdateKey, RemoveKey, CreateRecord, ReadFile, EraseRecord, EraseRecords, DropData, DropVault, GetRecord, GetRecords, GetSortedRecords, the questions about keys and size, and SetData and GetData of its references). Whatever the interleaving, the calls and their answers are those of some sequential history in which each call takes effect exactly once, at a moment between its beginning and its return, and when no call is under way the vault is as that history leaves it. In particular no call ever sees or answers from a half-done change of another.", "quantifier": "every number of threads, every sequence of these calls with any arguments, every interleaving of the steps of locking, reading, writing and unlocking, every state of the vault they start from (histories of class safe or wide); each reference variable is used by one thread at a time. Requests, record sets' own functions and VaultRecordRef::ToJson/ToStrings/PrintRecord, which do not take the lock they need, are C57's and C56's.", "why_tests_cant": "A test sees a few interleavings; a lost update or a torn read needs a particular one among infinitely many.", "anchors": ["Source/Vault.hpp", "Source/Vault.cpp", "Source/VaultRecordRef.hpp", "Source/VaultRecordRef.cpp", "Source/RecursiveReadWriteMutex.cpp", "Source/ReadWriteMutex.cpp"]}
{"id": "C59", "title": "A record's memory is freed once, when nothing can reach it any more, whatever the threads do", "statement": "Threads may get references to a record from its vault, copy, pass on, assign and drop them, look at the record through them, and erase the record or drop the vault's data, all at the same time: no thread ever touches the record after its memory was freed, it is never freed twice, it is not freed while the vault or any reference holds it, and once the vault has let go of it and the last reference is gone it is freed. No thread waits for ever for the record.", "quantifier": "every number of threads, every sequence of such calls by each of them, every interleaving of the single steps of AddRef, RemoveRef, Invalidate and the record's mutex; each reference variable is used by one thread at a time, vault functions hold the vault's lock as they do", "why_tests_cant": "A use after free needs one particular interleaving of the counter's test and the other thread's last decrement; no test can try all of them.", "anchors": ["Source/VaultRecord.cpp", "Source/VaultRecord.h", "Source/VaultRecordRef.cpp", "Source/Vault.cpp", "Source/Vault.hpp"]}
{"id": "C60", "title": "Decimal fractions are read as the number they denote", "statement": "FromString of a float or double accepts exactly the texts made of an optional '-', digits and optionally a point and further digits, rejects every other text, and stores a finite number with the text's sign that differs from the decimal value by at most a few units in the last place, whatever the number of digits; whole numbers within the precision of the type are read exactly. It never runs into undefined behaviour.", "quantifier": "every byte string, float and double", "why_tests_cant": "The texts are infinite in number, and the rounding errors of the digit loop add up differently for each of them.", "anchors": ["Source/Strings/FromString.h", "FromStringDoubleAndFloat", "Source/Strings/FromString.cpp"]}
{"id": "C61", "title": "The text of a float or double is the nearest decimal with six digits after the point", "statement": "ToString of a finite float or double is an optional '-' (exactly if the sign bit is set), the whole part without superfluous leading zeros, a point and exactly six digits, and the number shown is the multiple of a millionth nearest to the value, the even one if two are equally near. Two finite numbers have the same text exactly if they have the same sign and are shown as the same number of millionths. The texts of infinities and NaN are rejected by FromString.", "quantifier": "every float and double, including zeros of both signs, subnormal numbers, infinities and NaN", "why_tests_cant": "There are 2^64 doubles; ties and carries over the six digits occur at sparse ones.", "anchors": ["Source/Strings/ToString.h", "ToString"]}
{"id": "C62", "title": "A float or double written as text is read back as nearly the same number", "statement": "FromString accepts the text ToString makes of a finite float or double, and the number read differs from the one written by no more than the rounding to six decimals allows (7/10^7 for doubles, 12/10^7 for floats); whole numbers are read back exactly, and writing the number read gives the same text again, so saving and loading a file repeatedly does not drift.", "quantifier": "every finite float and double", "why_tests_cant": "The claim is about all 2^32 floats and 2^64 doubles; it fails only for some of them (from 2^31 on, and for floats between 8 and 16).", "anchors": ["Source/Strings/ToString.h", "Source/Strings/FromString.h", "FromStringDoubleAndFloat"]}
{"id": "C63", "title": "Threads that use several vaults never block each other for good", "statement": "Any number of threads may use any number of vaults at the same time: call the functions of each, copy, assign and move vaults, and call functions of any vault, the same or another, from the callback of SortBy or the generator function of AddUniqueKey, nested to any depth. From every state they can reach, all of them can still return from all their calls, and then every lock is free; no circle of waiting threads can form, whatever order they lock the vaults in.", "quantifier": "every number of threads and vaults, every program of calls of each with every nesting of calls in callbacks, every set of records and record sets the calls meet, every interleaving of their steps; VaultRecordRef::ToJson, ToStrings and PrintRecord, which lock the record before the vault, are C56's", "why_tests_cant": "Lock-order deadlocks (A then B against B then A) show in rare interleavings only, and the thread-wide counters of the recursive mutex make the locks of different vaults interact in ways no finite set of runs covers.", "anchors": ["Source/ReadWriteMutex.cpp: RecursiveReadWriteMutex, thread_local counters", "Source/ReadWriteMutex.h: ReadLock, WriteLock", "Source/Vault.cpp: copy, assignment and move of Vault, SortBy, DropVault", "Source/Vault.hpp: AddUniqueKey, VaultRecordSorters", "Source/VaultRecordRef.cpp, Source/VaultRecordSet.cpp"]}
{"id": "C64", "title": "Threads that use several vaults never race on the data", "statement": "Any number of threads may use any number of vaults at the same time, copy, assign and move vaults, and call functions of other vaults from callbacks: no two threads ever access the same part of a vault, record or record set at the same time while one of them writes it.", "quantifier": "every number of threads and vaults, every program of calls of each with every nesting of calls in callbacks, every interleaving of their steps", "why_tests_cant": "A data race is a property of all interleavings and usually has no visible effect in a test.", "anchors": ["Source/ReadWriteMutex.cpp: RecursiveReadWriteMutex, thread_local counters", "Source/Vault.cpp: copy, assignment and move of Vault, SortBy", "Source/Vault.hpp: AddUniqueKey, VaultRecordSorters"]}
{"id": "C65", "title": "No lock is left behind", "statement": "Whatever calls threads make on whatever vaults, records and record sets, in whatever nesting and interleaving: when all calls have returned, nobody holds the lock of any vault or the mutex of any record, no reader is counted by any lock, and every thread's recursion counters are back to 0, so later calls start from a clean state.", "quantifier": "every number of threads and vaults, every program of calls including those that use several vaults at once, every interleaving", "why_tests_cant": "A counter that is off by one in one interleaving of two vaults' locks shows only much later, as a hang or a missing exclusion.", "anchors": ["Source/ReadWriteMutex.cpp: ReadLock, ReadUnlock, WriteLock, WriteUnlock of both mutexes", "Source/ReadWriteMutex.h", "Source/Vault.cpp, Source/Vault.hpp, Source/VaultRecordRef.cpp, Source/VaultRecordSet.cpp: every lock and unlock"]}
{"id": "C66", "title": "Debug messages name the function the user called", "statement": "In a debug build, whatever functions of the library call each other, with errors anywhere and the format changed anywhere: every error reported while the format is Compact prints one message with its code, key and types, followed by the name of the outermost function in progress (the one the user called), nothing is printed while the format is None, and when the outermost call returns the record of calls in progress is what it was before it. No element of an empty record or beyond the array of return addresses is used.", "quantifier": "every tree of nested traced calls, errors, format changes and direct calls of PrintBackTrace, in builds with and without backtrace(), except PrintBackTrace called with no function in progress and errors more than 1020 calls deep (where the exact condition for undefined behaviour is proved)", "why_tests_cant": "the nesting of calls, errors and format changes is unbounded, and the record of calls is changed by the printing itself", "anchors": ["Source/BackTrace/BackTrace.cpp: Trace, PrintBackTrace, TraceLogger", "Source/BackTrace/BackTrace.h: DBG_LOG_ENTER, TRACE_MAX", "Source/VaultOperationResult.cpp: SetOpResult, ResultCodeString"]}
{"id": "C67", "title": "Vaults and their sets are isolated from each other", "statement": "An operation that neither names a vault as the one to change nor writes to one of its records through a reference leaves that vault's keys, types, defaults, uniqueness, records, values and the answers of all queries on it as they were; and it leaves every record set of that vault it does not name as the set to change as it was: same vault, keys, records, values and answers. The same holds for any number of such operations, so work on one vault or set is never visible in another.", "quantifier": "all operations (on other vaults, other sets, references) in all histories, all vaults and sets, bound or not; without set moves and moves of vaults that sets or references depend on", "why_tests_cant": "records, sets and vaults point at each other (dependent sets, parent vaults, references bound to vaults); that a change never leaks along one of these pointers depends on every history", "anchors": ["Source/Vault.hpp: all public functions", "Source/VaultRecordRef.hpp: SetData", "Source/VaultRecordSet.cpp", "Source/VaultRecord.cpp: dependentVaultRecordSets"]}
