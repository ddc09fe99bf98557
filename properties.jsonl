{"id": "C01", "title": "BinaryIndexOf is exact on sorted slices", "statement": "BinaryIndexOf(h, x) on an ascending slice h returns some i with h[i]==x when x occurs in h and -1 otherwise; it always terminates and never indexes out of range.", "quantifier": "every ascending slice (any length, duplicates allowed) over any totally ordered element type, every needle", "why_tests_cant": "Off-by-one errors in bisection only show for particular lengths/positions; tests sample a few arrays.", "anchors": ["internal/helpers/arrays.go:BinaryIndexOf"]}
{"id": "C02", "title": "BinaryIndexOfClosest returns a nearest element", "statement": "BinaryIndexOfClosest(h, x) on an ascending slice of unsigned integers returns -1 iff h is empty and otherwise an in-range index i such that |h[i]-x| <= |h[j]-x| for every j.", "quantifier": "every ascending slice of unsigned integers of any width, every needle of that width", "why_tests_cant": "Nearest-neighbour bisection has ties, ends and wrap-around cases no finite suite enumerates.", "anchors": ["internal/helpers/arrays.go:BinaryIndexOfClosest", "internal/helpers/arrays.go:Deviation"]}
{"id": "C03", "title": "PutSavingOrder is ordered-set insertion", "statement": "PutSavingOrder(h, v) on a strictly ascending slice returns a strictly ascending slice holding exactly the elements of h plus v; if v was present the slice is returned unchanged.", "quantifier": "every strictly ascending slice of unsigned integers, every value", "why_tests_cant": "The insertion point is derived from a nearest-element search, so correctness depends on all gaps between elements.", "anchors": ["internal/helpers/arrays.go:PutSavingOrder", "internal/helpers/arrays.go:Insert"]}
{"id": "C04", "title": "InsertSavingOrder keeps the slice ordered", "statement": "InsertSavingOrder(h, v) on an ascending slice (duplicates allowed, as the function itself creates them) returns an ascending slice that is h with one extra v.", "quantifier": "every ascending slice, every value; every slice reachable from the empty slice by InsertSavingOrder calls", "why_tests_cant": "The failure needs duplicates plus a particular position, which the unit tests do not contain.", "anchors": ["internal/helpers/arrays.go:InsertSavingOrder"]}
{"id": "C05", "title": "Remove and RemoveSavingOrder delete exactly one element", "statement": "For an index in range, RemoveSavingOrder(h,i) returns h without position i, order kept; Remove(h,i) returns a permutation of that; an index out of range panics.", "quantifier": "every slice, every index", "why_tests_cant": "Quantifies over all slices and indices.", "anchors": ["internal/helpers/arrays.go:Remove", "internal/helpers/arrays.go:RemoveSavingOrder"]}
{"id": "C06", "title": "Deviation is the absolute difference", "statement": "Deviation(a,b) equals |a-b| for all values of every integer element type the generic constraint admits.", "quantifier": "all pairs of values, all integer widths and both signednesses", "why_tests_cant": "The signed overflow corner is one pair in 2^128.", "anchors": ["internal/helpers/arrays.go:Deviation"]}
{"id": "C07", "title": "A profile answers with the last verdict on each item", "statement": "After any sequence of Like/Unlike/Dislike/Undislike/RemoveItem calls on a new profile, QualifyItem(x) is 1, -1 or 0 according to the effect of the calls mentioning x in order (Like sets 1, Dislike sets -1, Unlike clears only a like, Undislike clears only a dislike, RemoveItem clears).", "quantifier": "every operation sequence of any length, every item id", "why_tests_cant": "Depends on the sortedness of both slices being preserved by every history.", "anchors": ["internal/domain/profile.go:Profile.Like", "internal/domain/profile.go:Profile.Dislike", "internal/domain/profile.go:Profile.QualifyItem", "internal/domain/profile.go:Profile.RemoveItem"]}
{"id": "C08", "title": "Likes and dislikes stay sorted, duplicate-free and disjoint", "statement": "After any operation sequence on a new profile, Likes and Dislikes are strictly ascending and share no item.", "quantifier": "every operation sequence", "why_tests_cant": "State invariant over all histories.", "anchors": ["internal/domain/profile.go:Profile"]}
{"id": "C09", "title": "Set similarity is the correctly rounded Jaccard index", "statement": "For strictly ascending slices A and B the set similarity returns the float32 nearest to |A n B|/|A u B| and |A u B| itself (0 and 0 when both are empty).", "quantifier": "every pair of strictly ascending slices whose sizes are exactly representable", "why_tests_cant": "Counting by binary search is right only if search is right for all arrays; rounding covers all quotients.", "anchors": ["internal/domain/profile.go:computeSimilarityBetweenSets"]}
{"id": "C10", "title": "Similarity is symmetric", "statement": "p.ComputeSimilarity(q,f) and q.ComputeSimilarity(p,f) return the same float32, bit for bit.", "quantifier": "every pair of profiles built through the API, every dislike factor", "why_tests_cant": "Floating point and set counting over all pairs.", "anchors": ["internal/domain/profile.go:Profile.ComputeSimilarity"]}
{"id": "C11", "title": "Similarity lies in [0,100]", "statement": "ComputeSimilarity returns a number between 0 and 100 inclusive for every pair of profiles and every dislike factor in [0,1].", "quantifier": "every pair of profiles, every factor in [0,1]", "why_tests_cant": "A rounding excess or a 0/0 occurs only for particular sizes.", "anchors": ["internal/domain/profile.go:Profile.ComputeSimilarity"]}
{"id": "C12", "title": "Identical profiles score 100 and disjoint profiles 0", "statement": "If the union weights are not both zero, a profile compared with itself scores exactly 100, and two profiles with no common like and no common dislike score exactly 0.", "quantifier": "every profile pair built through the API, every factor in [0,1]", "why_tests_cant": "Exactness of four chained float operations for all sizes.", "anchors": ["internal/domain/profile.go:Profile.ComputeSimilarity"]}
{"id": "C13", "title": "FileBuffer behaves as a seekable byte file", "statement": "Under any sequence of Read/Write/Seek/Truncate/Close, FileBuffer never panics, keeps its offset within its length, and returns the bytes an ideal random-access file with the same history would return (seeking outside the content and any use after Close are errors that change nothing).", "quantifier": "every operation sequence, every argument", "why_tests_cant": "Stateful aliasing/offset behaviour over arbitrary histories.", "anchors": ["internal/helpers/file_buffer.go:FileBuffer"]}
{"id": "C14", "title": "WriteZeros writes exactly n zeros and SkipReading consumes exactly n bytes", "statement": "On a working writer WriteZeros(n) appends n zero bytes (none for n<=0) and returns n; on a reader with at least n bytes left SkipReading(n) advances it by exactly n and returns n, otherwise it fails having consumed everything.", "quantifier": "every n, every writer/reader position, every pattern of short reads, readers that report EOF by itself (others: C99)", "why_tests_cant": "Chunk boundaries at multiples of 100 and reader chunking vary independently.", "anchors": ["internal/helpers/io.go:WriteZeros", "internal/helpers/io.go:SkipReading"]}
{"id": "C15", "title": "Delta header and entry encodings round-trip", "statement": "Writing a delta prefix/header/entry and reading it back from any reader returns the same values, produces exactly 8/6/18 bytes and consumes exactly those bytes; the stored checksum always validates.", "quantifier": "every header, every entry (op byte, 64-bit user and item), every following byte stream and read chunking", "why_tests_cant": "2^136 entries times arbitrary chunking.", "anchors": ["internal/infra/delta/protocol.go:WriteEntry", "internal/infra/delta/protocol.go:ReadEntry", "internal/infra/delta/protocol.go:WriteHeader", "internal/infra/delta/protocol.go:ReadHeader", "internal/infra/delta/protocol.go:ReadPrefix"]}
{"id": "C16", "title": "The delta checksum detects every single-byte corruption", "statement": "If one byte of a written 18-byte delta entry is changed to any other value, reading it back and validating the checksum fails.", "quantifier": "every entry, every byte position, every wrong value", "why_tests_cant": "18*255 corruptions for each of 2^136 entries.", "anchors": ["internal/infra/delta/protocol.go:CalcEntryChecksum", "internal/infra/delta/protocol.go:ValidateEntryChecksum"]}
{"id": "C17", "title": "Lock flag operations touch only the lock byte", "statement": "In each of the delta, index and recdb formats WriteLocked(b) changes only the lock byte and leaves the file pointer where it was, and IsLocked reads b back without changing content or pointer.", "quantifier": "every file at least as long as the lock offset, every pointer position, both flag values, all three formats", "why_tests_cant": "All file contents and pointer positions.", "anchors": ["internal/infra/delta/protocol.go:WriteLocked", "internal/infra/delta/protocol.go:IsLocked", "internal/infra/index/protocol.go:WriteLocked", "internal/infra/index/protocol.go:IsLocked", "internal/infra/recdb/protocol.go:WriteLocked", "internal/infra/recdb/protocol.go:IsLocked"]}
{"id": "C18", "title": "Recovery of a delta file keeps exactly the valid entries", "statement": "RecoverTo, given any byte stream, writes a well-formed unlocked delta file whose entry count is right and whose entries are exactly, in order, the complete checksum-valid 18-byte records of the input (none if prefix or header is unreadable).", "quantifier": "every input byte stream, up to 2^32 records (the counter of the file format)", "why_tests_cant": "Arbitrary corruption; no finite corpus of corrupted files suffices.", "anchors": ["internal/infra/delta/protocol.go:RecoverTo", "internal/infra/delta/storagefactory.go:Recover"]}
{"id": "C19", "title": "Recovery is idempotent and harmless on healthy files", "statement": "Recovering a recovered file again leaves it byte-identical, and recovering a file with only valid entries keeps every entry.", "quantifier": "every input byte stream, up to 2^32 records (the counter of the file format)", "why_tests_cant": "Quantifies over all files.", "anchors": ["internal/infra/delta/storagefactory.go:Recover"]}
{"id": "C20", "title": "Recover does not depend on where the file pointer was", "statement": "Recover(file) recovers the whole file regardless of the current file pointer.", "quantifier": "every file and pointer position, up to 2^32 records (the counter of the file format)", "why_tests_cant": "A test that opens the file fresh always has pointer 0.", "anchors": ["internal/infra/delta/storagefactory.go:Recover"]}
{"id": "C21", "title": "Delta Get returns the last operation for the pair", "statement": "After any history of Add and Flush, Get(user,item) returns the op of the last Add for that pair, and reports absence only if there was none.", "quantifier": "every history of Add/Flush, every user and item, with fewer than 2^32 operations in all (the counter of the file format; beyond it see C98)", "why_tests_cant": "The failing histories interleave flush and adds for the same user.", "anchors": ["internal/infra/delta/storage.go:Get", "internal/infra/delta/storage.go:Add", "internal/infra/delta/storage.go:Flush"]}
{"id": "C22", "title": "Delta data survives Close and reopening", "statement": "After any history of Add/Flush followed by Close, opening the file again succeeds and Get(user,item) returns the op of the last Add for every pair, whatever order Go iterates its maps in.", "quantifier": "every history, every map iteration order, every pair, with fewer than 2^32 operations in all (the counter of the file format; beyond it see C98)", "why_tests_cant": "Go randomises map iteration; histories are unbounded.", "anchors": ["internal/infra/delta/storage.go:Close", "internal/infra/delta/storagefactory.go:Open", "internal/infra/delta/storage.go:flushEntries"]}
{"id": "C23", "title": "Delta item count and file size are exact", "statement": "GetFileSize equals the length of the file right after any successful Flush, GetTotalItemCount equals the number of records the file then holds, and both survive close/reopen.", "quantifier": "every history, with fewer than 2^32 operations in all (the counter of the file format; beyond it see C98)", "why_tests_cant": "Invariant over histories.", "anchors": ["internal/infra/delta/storage.go:GetTotalItemCount", "internal/infra/delta/storage.go:GetFileSize"]}
{"id": "C24", "title": "Delta user count is the number of distinct users", "statement": "GetUserCount equals the number of distinct users mentioned by Add in the whole history.", "quantifier": "every history, with fewer than 2^32 operations in all (the counter of the file format; beyond it see C98)", "why_tests_cant": "Invariant over histories mixing flushed and unflushed users.", "anchors": ["internal/infra/delta/storage.go:GetUserCount"]}
{"id": "C25", "title": "A crash loses nothing that was flushed", "statement": "If the process dies at any byte of any write after Open returned and before Close unlocked the file, OpenMaybeRecover succeeds on what is on disk and, for every pair, returns either the last op as of the last completed Flush or the last op as of the interrupted Flush.", "quantifier": "every history, every crash point at byte granularity, with fewer than 2^32 operations in all (the counter of the file format; beyond it see C98)", "why_tests_cant": "Crash points times histories.", "anchors": ["internal/infra/delta/storage.go:Flush", "internal/infra/delta/storagefactory.go:OpenMaybeRecover", "internal/infra/delta/protocol.go:RecoverTo"]}
{"id": "C26", "title": "An open delta file is always marked locked on disk", "statement": "From the moment Open returns until Close clears the flag, at every byte-level intermediate state of the file the lock byte is 1; after a successful Close it is 0.", "quantifier": "every history, every intermediate write", "why_tests_cant": "Intermediate on-disk states are invisible to tests.", "anchors": ["internal/infra/delta/storage.go:flushHeader", "internal/infra/delta/storagefactory.go:Open"]}
{"id": "C27", "title": "Delta Open rejects bad files without touching them", "statement": "Open on a non-empty file that is locked, has a wrong prefix, a short header or fewer entries than its header announces returns an error and leaves the content unchanged.", "quantifier": "every such file content", "why_tests_cant": "All malformed files.", "anchors": ["internal/infra/delta/storagefactory.go:Open"]}
{"id": "C28", "title": "OpenMaybeRecover creates a storage on an empty file", "statement": "OpenMaybeRecover on an empty file writes the initial data and returns an empty storage, as its documentation says.", "quantifier": "every kind of file implementation, every initial pointer", "why_tests_cant": "Environment-dependent error path (EOF on the lock byte).", "anchors": ["internal/infra/delta/storagefactory.go:OpenMaybeRecover", "internal/infra/delta/protocol.go:IsLocked"]}
{"id": "C29", "title": "A crash during recovery is recoverable", "statement": "If the process dies while Recover is rewriting the file, a later OpenMaybeRecover still yields every valid entry of the original file and none of the invalid ones.", "quantifier": "every corrupted file, every crash point, up to 2^32 records (the counter of the file format)", "why_tests_cant": "Needs a crash inside the recovery copy.", "anchors": ["internal/infra/delta/storagefactory.go:Recover"]}
{"id": "C30", "title": "Recovery never invents operations", "statement": "Every entry present after recovery was written by some Add, for torn writes and for file systems that leave zero-filled blocks after a power loss.", "quantifier": "every history and every crash image with a zero-filled tail, with fewer than 2^32 operations in all (the counter of the file format; beyond it see C98)", "why_tests_cant": "Zero-filled tails appear only after power loss.", "anchors": ["internal/infra/delta/protocol.go:RecoverTo", "internal/infra/delta/protocol.go:CalcEntryChecksum"]}
{"id": "C31", "title": "The index storage is a map", "statement": "After any history of Put/Remove, Get(id) returns the value of the last Put not followed by a Remove of that id, and absence otherwise.", "quantifier": "every history, every id, with fewer than 2^32 pairs in all (the counter of the file format; beyond it see C98)", "why_tests_cant": "Unbounded histories.", "anchors": ["internal/infra/index/storage.go:Get", "internal/infra/index/storage.go:Put", "internal/infra/index/storage.go:Remove"]}
{"id": "C32", "title": "The index survives Close and reopening", "statement": "After any history of Put/Remove on an opened index, Close then Open yields an index with exactly the same id-to-index map, whatever the map iteration order, through any buffering of the file.", "quantifier": "every history with fewer than 2^32 ids, every iteration order, every buffer size", "why_tests_cant": "Random map order; buffer refill boundaries.", "anchors": ["internal/infra/index/storage.go:Close", "internal/infra/index/storage.go:load", "internal/infra/index/storagefactory.go:Open"]}
{"id": "C33", "title": "An index not closed properly is refused", "statement": "If the process dies at any byte of any write between Open and the end of Close, a later Open either fails or yields exactly the map that was last completely saved or the one being saved - never a mixture.", "quantifier": "every history, every crash point, with fewer than 2^32 pairs in all (the counter of the file format; beyond it see C98)", "why_tests_cant": "Crash points inside Close.", "anchors": ["internal/infra/index/storage.go:Close", "internal/infra/index/storage.go:saveHeader", "internal/infra/index/storage.go:saveEntries"]}
{"id": "C34", "title": "A broken index is reset when a namespace starts", "statement": "Starting a namespace whose index file is locked resets the index and succeeds in opening it.", "quantifier": "every locked index file, with fewer than 2^32 pairs in all (the counter of the file format; beyond it see C98)", "why_tests_cant": "Needs a crash before the start.", "anchors": ["internal/domain/likenamespace.go:openMaybeResetIndexStorage", "internal/infra/index/storage.go:load"]}
{"id": "C35", "title": "Recdb header, entry and profile encodings round-trip", "statement": "Writing a recdb prefix/header/entry and reading it back returns the same values, and an entry whose data fits occupies and consumes exactly Capacity bytes.", "quantifier": "every header, every profile with fewer than 2^32 likes and dislikes, every capacity that fits, every following stream and chunking, readers that report EOF by itself (others: C99)", "why_tests_cant": "Unbounded profiles.", "anchors": ["internal/infra/recdb/protocol.go:WriteEntry", "internal/infra/recdb/protocol.go:ReadEntry", "internal/infra/recdb/likeprotocol.go:ReadEntryData", "internal/infra/recdb/likeprotocol.go:WriteEntryData"]}
{"id": "C36", "title": "WriteEntry never writes outside the entry's capacity", "statement": "WriteEntry writes exactly Capacity bytes, or fails.", "quantifier": "every entry and capacity", "why_tests_cant": "Needs data larger than the reserved capacity.", "anchors": ["internal/infra/recdb/protocol.go:WriteEntry"]}
{"id": "C37", "title": "ReadEntry refuses data that does not fit the capacity", "statement": "ReadEntry succeeds only if the data fits in Capacity, and then consumes exactly Capacity bytes.", "quantifier": "every byte stream", "why_tests_cant": "Needs malformed capacities such as 0..4.", "anchors": ["internal/infra/recdb/protocol.go:ReadEntry", "internal/infra/recdb/likeprotocol.go:ReadEntryData"]}
{"id": "C38", "title": "Predicted capacity always suffices", "statement": "PredictEntryCapacity is at least PredictEntrySize, which is exactly the number of bytes the entry's header and data occupy, and at least 245; a fresh entry written with it fits.", "quantifier": "every profile; for writing, those whose predicted capacity fits its 32-bit field", "why_tests_cant": "All profile sizes.", "anchors": ["internal/infra/recdb/protocol.go:PredictEntryCapacity", "internal/infra/recdb/protocol.go:PredictEntrySize", "internal/infra/recdb/likeprotocol.go:PredictDataSize"]}
{"id": "C39", "title": "The iterator enumerates exactly the stored entries", "statement": "On an unlocked recdb file holding n entries, n calls of Next return those entries in file order, HasNext is true before each and false afterwards, and a further Next fails; Rewind makes the iteration start over.", "quantifier": "every list of entries, every buffer size, every number of calls between rewinds, with fewer than 2^32 entries (the counter of the file format)", "why_tests_cant": "Entries straddling buffer refills.", "anchors": ["internal/infra/recdb/iterator.go:NewIterator", "internal/infra/recdb/iterator.go:Next", "internal/infra/recdb/iterator.go:HasNext", "internal/infra/recdb/iterator.go:Rewind"]}
{"id": "C40", "title": "SetPrevious rewrites the entry last returned", "statement": "After Next returned an entry, SetPrevious(e) with the same capacity replaces exactly that entry's bytes in the file, changes nothing else, and iteration continues with the following entry.", "quantifier": "every list of entries, every position in the iteration, with fewer than 2^32 entries (the counter of the file format)", "why_tests_cant": "Read-ahead buffering makes it fail away from the end of the file.", "anchors": ["internal/infra/recdb/iterator.go:SetPrevious"]}
{"id": "C41", "title": "Create initialises an empty database", "statement": "After Create on an empty file, the file holds a valid recdb prefix and header with zero entries and NewIterator succeeds on it.", "quantifier": "every writer", "why_tests_cant": "Depends on buffered data reaching the file.", "anchors": ["internal/infra/recdb/protocol.go:Create", "internal/infra/recdb/protocol.go:OpenOrCreateFile"]}
{"id": "C42", "title": "Namespace names are exactly the documented language and path-safe", "statement": "ParseNamespaceName accepts exactly the strings starting with a letter followed by letters, digits, '_' or '-'; an accepted name contains no path separator, dot or NUL, so its files stay in the base directory.", "quantifier": "every byte string", "why_tests_cant": "All strings.", "anchors": ["internal/domain/valueobjects/namespacename.go:ParseNamespaceName"]}
{"id": "C43", "title": "Different namespaces never share a file", "statement": "The delta, index and recdb paths of two namespaces with different names are all different, also from namespaces.json, and lie under the configured REC_PATH.", "quantifier": "every pair of accepted names, every base path", "why_tests_cant": "All pairs of names.", "anchors": ["internal/domain/likenamespace.go:openMaybeRecoverDeltaStorage", "internal/domain/namespaceservice.go:forgeNamespace", "internal/domain/namespaceservice.go:NewNamespaceService"]}
{"id": "C44", "title": "Namespace names stay unique", "statement": "After any sequence of create/update/delete requests no two listed namespaces have the same name, whatever requests fail to be saved.", "quantifier": "every sequential request history, every pattern of save failures", "why_tests_cant": "Unbounded histories.", "anchors": ["internal/domain/namespaceservice.go:CreateNamespace", "internal/domain/namespaceservice.go:UpdateNamespace", "internal/domain/namespaceservice.go:DeleteNamespace"]}
{"id": "C45", "title": "Namespace names stay unique under concurrent requests", "statement": "Two concurrent creations of the same name cannot both succeed, and no successful creation is lost.", "quantifier": "every interleaving of concurrent handlers", "why_tests_cant": "Needs a particular schedule.", "anchors": ["internal/domain/namespaceservice.go:CreateNamespace"]}
{"id": "C46", "title": "Updating a namespace completes", "statement": "UpdateNamespace on an existing namespace returns, with the new name and parameters applied and saved.", "quantifier": "every service state, every request", "why_tests_cant": "A blocking receive never returns; a test would hang, not fail.", "anchors": ["internal/domain/namespaceservice.go:UpdateNamespace", "internal/domain/likenamespace.go:Rename"]}
{"id": "C47", "title": "A failed creation leaves no trace", "statement": "If CreateNamespace returns an error the list of namespaces is unchanged.", "quantifier": "every service state, every request, every save failure", "why_tests_cant": "Needs an injected write failure.", "anchors": ["internal/domain/namespaceservice.go:CreateNamespace"]}
{"id": "C48", "title": "Namespaces survive a restart", "statement": "LoadNamespaces after SaveNamespaces restores every namespace with its name, type and parameters.", "quantifier": "every list of namespaces", "why_tests_cant": "All lists.", "anchors": ["internal/domain/namespaceservice.go:SaveNamespaces", "internal/domain/namespaceservice.go:LoadNamespaces"]}
{"id": "C49", "title": "GET and PUT by name address the named namespace", "statement": "GET /api/v1/namespaces/x answers 200 with namespace x if it exists and 404 otherwise; PUT addresses the same namespace.", "quantifier": "every service state, every path parameter", "why_tests_cant": "All names and states.", "anchors": ["internal/api/shard/endpoints/namespaceendpoint.go:Get", "internal/api/shard/endpoints/namespaceendpoint.go:RegisterRoutes"]}
{"id": "C50", "title": "Namespace creation validates its input", "statement": "POST creates a namespace and answers 201 only for a free, lower-case alphanumeric name starting with a letter, type 'like', and a dislike factor in [0,1]; every other body is answered 400 and changes nothing.", "quantifier": "every request body, every service state", "why_tests_cant": "All bodies.", "anchors": ["internal/api/shard/endpoints/namespaceendpoint.go:Create", "internal/api/shard/dto/namespacecreaterequest.go:ToDomain"]}
{"id": "C51", "title": "Configuration always yields a usable address", "statement": "NewConfigFromEnv takes the host and a valid TCP port from the environment when given and the defaults otherwise, and GetHostPort is host:port in decimal.", "quantifier": "every value of REC_HOST and REC_PORT, every defaults argument", "why_tests_cant": "All strings.", "anchors": ["internal/api/shard/config.go:NewConfigFromEnv", "internal/api/shard/config.go:GetHostPort"]}
{"id": "C52", "title": "Every accepted action is answered exactly once, in order", "statement": "While the namespace worker runs, each call (Like, Dislike, GetProfile, ...) that entered the queue is taken in FIFO order and its caller receives exactly one answer, unless the process dies.", "quantifier": "every interleaving of any number of callers with the worker, Stop and cancellation", "why_tests_cant": "All schedules.", "anchors": ["internal/domain/likenamespace.go:Start", "internal/domain/likenamespace.go:Like", "internal/infra/recdb/likestorage.go:ProcessActions"]}
{"id": "C53", "title": "Calls never get stuck while the worker is alive", "statement": "In every reachable state with a started worker and a caller waiting for an answer, the worker can take a step, and after finitely many worker steps the caller has its answer.", "quantifier": "every reachable state", "why_tests_cant": "Deadlock-freedom over all schedules.", "anchors": ["internal/domain/likenamespace.go:Start", "internal/domain/likenamespace.go:sendStoppedLikeNamespaceErrorToActionWaiters"]}
{"id": "C54", "title": "Stop answers the queued calls and closes the storages once", "statement": "After Stop, every queued call is answered, then the index, delta and like storages are each closed exactly once, in that order, and the worker ends.", "quantifier": "every interleaving", "why_tests_cant": "All schedules.", "anchors": ["internal/domain/likenamespace.go:Stop", "internal/domain/likenamespace.go:Start"]}
{"id": "C55", "title": "Cancelling the context closes the storages", "statement": "After the context given to Start is cancelled the worker answers waiting calls with an error, closes the three storages and ends.", "quantifier": "every interleaving without Stop", "why_tests_cant": "Needs waiting forever to see it does not happen.", "anchors": ["internal/domain/likenamespace.go:Start", "internal/domain/likenamespace.go:sendStoppedLikeNamespaceErrorToActionWaiters"]}
{"id": "C56", "title": "Actions waiting in the queue are processed as one batch", "statement": "When several actions are queued, the worker hands all of them to the storage in one ProcessActions call.", "quantifier": "every queue content", "why_tests_cant": "Timing dependent.", "anchors": ["internal/domain/likenamespace.go:Start"]}
{"id": "C57", "title": "A fresh namespace can be started", "statement": "Start on a namespace whose files do not exist yet creates them and succeeds.", "quantifier": "every namespace", "why_tests_cant": "End-to-end composition of three storages.", "anchors": ["internal/domain/likenamespace.go:Start", "internal/domain/namespaceservice.go:forgeNamespace"]}
{"id": "C58", "title": "The server terminates when it cannot listen", "statement": "Application.Run returns the listen error if the server cannot listen, and terminates cleanly on SIGINT/SIGTERM.", "quantifier": "every interleaving of the listener goroutine, signals and the shutdown timer", "why_tests_cant": "All schedules.", "anchors": ["internal/api/shard/application.go:Run"]}
{"id": "C59", "title": "Index records are written and read back exactly", "statement": "WritePrefix/WriteHeader/WriteEntry of the index protocol put exactly the documented big-endian bytes, ReadPrefix/ReadHeader/ReadEntry return what was written however the reader chops the stream, and a wrong magic is refused.", "quantifier": "every value, every working writer, every chunking reader", "why_tests_cant": "All values and all chunkings.", "anchors": ["internal/infra/index/protocol.go:WriteHeader", "internal/infra/index/protocol.go:ReadHeader", "internal/infra/index/protocol.go:WriteEntry", "internal/infra/index/protocol.go:ReadEntry", "internal/infra/index/protocol.go:ReadPrefix"]}
{"id": "C60", "title": "Closing the index always releases its file", "statement": "When Close of an index storage returns, with or without an error, its file handle is closed.", "quantifier": "every index, every pattern of I/O errors, every iteration order", "why_tests_cant": "All patterns of I/O errors.", "anchors": ["internal/infra/index/storage.go:Close", "internal/infra/index/storage.go:saveHeader"]}
{"id": "C61", "title": "Closing the delta storage always releases its file", "statement": "When Close of a delta storage returns, with or without an error, its file handle is closed.", "quantifier": "every execution, every pattern of I/O errors", "why_tests_cant": "All patterns of I/O errors.", "anchors": ["internal/infra/delta/storage.go:Close"]}
{"id": "C62", "title": "A failed Flush can be retried", "statement": "If Flush fails because of an I/O error and a later Flush and Close succeed, reopening the storage gives the answers the storage gave.", "quantifier": "every execution, every I/O error, with fewer than 2^32 operations in all (the counter of the file format; beyond it see C98)", "why_tests_cant": "All failure points.", "anchors": ["internal/infra/delta/storage.go:Flush", "internal/infra/delta/storage.go:flushEntries"]}
{"id": "C63", "title": "Dying while the delta file is created is harmless", "statement": "If the process dies at any byte of the creation of the delta file, OpenMaybeRecover opens it later as an empty storage.", "quantifier": "every crash point of the creation", "why_tests_cant": "Crash points inside the creation.", "anchors": ["internal/infra/delta/storagefactory.go:Open", "internal/infra/delta/storagefactory.go:OpenMaybeRecover"]}
{"id": "C64", "title": "Open detects corrupted records", "statement": "Open of a cleanly closed delta file in which a byte of a record was changed does not load the changed record.", "quantifier": "every file, every changed byte", "why_tests_cant": "All positions and values.", "anchors": ["internal/infra/delta/storagefactory.go:Open", "internal/infra/delta/protocol.go:ValidateEntryChecksum"]}
{"id": "C65", "title": "A created namespace is listed with its parameters", "statement": "After POST answers 201, GET /api/v1/namespaces answers the previous list followed by the new namespace with the requested name, type 'like' and the requested maximum (1000 if omitted or 0).", "quantifier": "every running service state, every request body", "why_tests_cant": "All states and bodies.", "anchors": ["internal/api/shard/endpoints/namespaceendpoint.go:List", "internal/domain/likenamespace.go:NewLikeNamespace", "internal/api/shard/dto/namespaceresponse.go:MakeNamespaceResponseArray"]}
{"id": "C66", "title": "Every dislike factor in [0,1] is accepted", "statement": "POST with an otherwise valid body is answered 201 for every dislike factor in the documented range 0 to 1, the bounds included.", "quantifier": "every float32 in [0,1]", "why_tests_cant": "All floats; 0 is a corner that the validator's 'required' treats as missing.", "anchors": ["internal/api/shard/dto/namespacecreaterequest.go:NamespaceCreateRequest", "internal/domain/likenamespace.go:SetDislikeFactor"]}
{"id": "C67", "title": "The shard starts whatever namespaces.json contains", "statement": "LoadNamespaces followed by Start never crashes the process, whatever is in namespaces.json; in particular not on what SaveNamespaces wrote.", "quantifier": "every file content", "why_tests_cant": "All byte strings.", "anchors": ["main.go:runShard", "internal/domain/namespaceservice.go:Start", "internal/domain/namespaceservice.go:LoadNamespaces"]}
{"id": "C68", "title": "Deleting a namespace removes exactly it and frees its name", "statement": "DeleteNamespace of a listed name stops that namespace, removes it and no other, never panics, and the name can be created again; of another name it changes nothing and returns an error. The namespaces off the list are stopped, those on it are not.", "quantifier": "every running service state, every name, every save failure", "why_tests_cant": "All states.", "anchors": ["internal/domain/namespaceservice.go:DeleteNamespace", "internal/helpers/arrays.go:Remove", "internal/domain/likenamespace.go:Stop"]}
{"id": "C69", "title": "A created namespace answers calls", "statement": "A call (Like, GetProfile, ...) on a namespace returned by CreateNamespace is eventually answered.", "quantifier": "every created namespace, every call", "why_tests_cant": "Liveness over all executions.", "anchors": ["internal/domain/namespaceservice.go:CreateNamespace", "internal/domain/likenamespace.go:Start", "internal/domain/likenamespace.go:Like"]}
{"id": "C70", "title": "Every HTTP request is answered", "statement": "Every request to the shard is answered (no handler blocks forever) and never with a server error.", "quantifier": "every running service state, every request", "why_tests_cant": "All states, bodies and paths.", "anchors": ["internal/api/shard/endpoints/namespaceendpoint.go:RegisterRoutes", "internal/api/shard/endpoints/helpers.go:AbortWithBindingErrors"]}
{"id": "C71", "title": "A stopped namespace refuses calls without crashing", "statement": "A call made on, or a second Stop of, a namespace that was stopped returns (with an error) and does not take the process down.", "quantifier": "every interleaving of callers, Stop and the worker", "why_tests_cant": "A panic on a closed channel needs the right interleaving and kills the test binary.", "anchors": ["internal/domain/likenamespace.go:Stop", "internal/domain/likenamespace.go:Like"]}
{"id": "C72", "title": "A failed start leaves the files as it found them", "statement": "A Start that does not succeed leaves the delta and index files closed and unlocked, with the operations and pairs they held.", "quantifier": "every namespace, content of its files, operating system failure and factory", "why_tests_cant": "Needs a failure at every point of the start, inspected on disk.", "anchors": ["internal/domain/likenamespace.go:Start", "internal/domain/likenamespace.go:openMaybeRecoverLikeStorage", "internal/domain/namespaceservice.go:forgeNamespace"]}
{"id": "C73", "title": "A clean shutdown leaves the namespaces restartable", "statement": "After the shard exited with code 0, every namespace that was running starts again with the operations that were flushed.", "quantifier": "every execution of the server, every history of the storages, any number of start attempts, with fewer than 2^32 operations in all (the counter of the file format; beyond it see C98)", "why_tests_cant": "Spans the server loop, the namespace workers, the files and the next start of the process.", "anchors": ["main.go:runShard", "internal/api/shard/application.go:Run", "internal/domain/likenamespace.go:Start", "internal/domain/likenamespace.go:openMaybeResetIndexStorage"]}
{"id": "C74", "title": "A graceful shutdown lets the running requests finish", "statement": "When the shard exits with code 0 after a signal, every connection it was serving has ended before.", "quantifier": "every interleaving of clients, the listener, the shutdown and the timer", "why_tests_cant": "The window between accepting a connection and registering it is a few instructions wide.", "anchors": ["internal/api/shard/application.go:Run"]}
{"id": "C75", "title": "The storage is handed every call as it was made", "statement": "The actions given to ProcessActions stand for the calls that were made (same kind, same user, same item), in the order in which they entered the queue, none twice and none skipped; and only a call that was handed over is answered with anything but the refusal of a stopping namespace.", "quantifier": "every interleaving of any number of callers with the worker, Stop and cancellation", "why_tests_cant": "All schedules; a test sees one order of a few calls.", "anchors": ["internal/domain/likenamespace.go:Start", "internal/domain/likenamespace.go:Like", "internal/domain/likenamespace.go:Dislike", "internal/domain/actions.go:Action"]}
{"id": "C76", "title": "An acknowledged like shows in the profile", "statement": "If Like(user, item) returned nil and nobody else touched that item of that user, a GetProfile(user) made afterwards returns a profile that has the item among its likes.", "quantifier": "every interleaving of any number of callers with the worker, Stop and cancellation", "why_tests_cant": "All schedules, and all users and items.", "anchors": ["internal/domain/likenamespace.go:Like", "internal/domain/likenamespace.go:GetProfile", "internal/infra/recdb/likestorage.go:ProcessActions"]}
{"id": "C77", "title": "Loading namespaces.json accepts exactly JSON", "statement": "LoadNamespaces reports an error and changes nothing when the file is not a JSON text (RFC 8259), has more than 10000 levels (the decoder's limit) or is neither null nor an array; null empties the list; an array gives a list of its length, with nil for every null and the former entry for every other element.", "quantifier": "every file content, every list in memory", "why_tests_cant": "The contents of a damaged file cannot be enumerated.", "anchors": ["internal/domain/namespaceservice.go:LoadNamespaces"]}
{"id": "C78", "title": "A namespaces.json that was cut off is noticed", "statement": "If the process dies or the disk fills while SaveNamespaces writes the file, the next process gets an error from LoadNamespaces, takes nothing from the file, and starts.", "quantifier": "every list of namespaces, every length at which the write stopped", "why_tests_cant": "Every cut of every file.", "anchors": ["internal/domain/namespaceservice.go:SaveNamespaces", "internal/domain/namespaceservice.go:LoadNamespaces", "main.go:main"]}
{"id": "C79", "title": "A failed save keeps the namespaces file", "statement": "When SaveNamespaces returns an error the file on disk still has the content it had before.", "quantifier": "every list of namespaces, every fate of the write", "why_tests_cant": "Needs a write that fails half way.", "anchors": ["internal/domain/namespaceservice.go:SaveNamespaces"]}
{"id": "C80", "title": "Profiles held in memory do not disturb one another", "statement": "Any number of profiles are created with NewProfile and changed in any order; however the backing arrays of their slices grow, every call returns and each profile's verdicts and lists are those of the calls made on it alone.", "quantifier": "every number of profiles, every interleaving of calls, every growth of the slices", "why_tests_cant": "In-place removal and insertion write to backing arrays; whether another slice sees it depends on capacities and on the whole history.", "anchors": ["internal/domain/profile.go:NewProfile", "internal/domain/profile.go:Like", "internal/domain/profile.go:Unlike", "internal/helpers/arrays.go:Insert", "internal/helpers/arrays.go:RemoveSavingOrder"]}
{"id": "C81", "title": "A listing shows every namespace that is there all the time exactly once", "statement": "While GET /api/v1/namespaces is being answered other requests may create and delete namespaces; a namespace that is registered from the beginning to the end of the request occurs exactly once in the answer.", "quantifier": "every interleaving of creations, deletions and the reads of a listing, every growth of the slice", "why_tests_cant": "Depends on the schedule between single slice accesses and on the capacity of the backing array.", "anchors": ["internal/domain/namespaceservice.go:GetNamespaces", "internal/domain/namespaceservice.go:DeleteNamespace", "internal/domain/namespaceservice.go:CreateNamespace", "internal/api/shard/dto/namespaceresponse.go:MakeNamespaceResponseArray", "internal/helpers/arrays.go:Remove"]}
{"id": "C82", "title": "Flushed operations survive any number of crashes", "statement": "A delta file is used by any number of processes one after another, each of which closes it or dies at any byte of a write. OpenMaybeRecover always opens it for the next one, and for every pair Get answers with an operation that was added to it and that is not older than the last one on the pair that was flushed before a crash.", "quantifier": "every number of processes, every sequence of calls in each, every byte at which each dies, with fewer than 2^32 operations in all (the counter of the file format; beyond it see C98)", "why_tests_cant": "Needs an induction over processes in which each recovery starts from what the previous recovery and crash left.", "anchors": ["internal/infra/delta/storagefactory.go:OpenMaybeRecover", "internal/infra/delta/storagefactory.go:Recover", "internal/infra/delta/storage.go:Flush", "internal/infra/delta/storage.go:Close", "internal/infra/delta/storage.go:Get"]}
{"id": "C83", "title": "A refused creation names the faulty fields", "statement": "When a POST or PUT body is refused by validation, the answer lists exactly the fields that do not fit, each once, by the name the client sent (the JSON key).", "quantifier": "every request body, every state of the service", "why_tests_cant": "The set of reported fields depends on every combination of faulty values and on the order of two validation stages.", "anchors": ["internal/api/shard/endpoints/helpers.go:AbortWithBindingErrors", "internal/api/shard/endpoints/helpers.go:AbortWithValidationError", "internal/api/shard/dto/namespacecreaterequest.go:NamespaceCreateRequest", "internal/api/shard/dto/namespaceupdaterequest.go:NamespaceUpdateRequest"]}
{"id": "C84", "title": "Response bodies are JSON texts that say what is meant", "statement": "The text of every response that has a body is a JSON text in UTF-8, and read back by the rules of JSON it describes exactly the namespace, list of namespaces, message or list of faulty fields that the handler answers with.", "quantifier": "every response value, with any bytes in its strings (a byte that is no UTF-8 is shown as U+FFFD) and any number", "why_tests_cant": "Needs all strings with quotes, control characters, HTML characters and all UTF-8 sequences.", "anchors": ["internal/api/shard/dto/namespaceresponse.go:NamespaceResponse", "internal/api/shard/dto/error.go:Error", "internal/api/shard/dto/validationerror.go:ValidationError", "internal/api/shard/endpoints/namespaceendpoint.go:List"]}
{"id": "C85", "title": "A creation does what the text of its body says", "statement": "If the text of a POST begins with a JSON object, the namespace created is the one that the object describes by the rules of JSON: escapes and exponents are read, keys match in any case, the last of repeated members counts, and unknown members and text after the object have no effect. A text with a value that does not fit its field, that begins with no object, or whose object has more than 10000 levels (the decoder's limit) is answered 400 and changes nothing.", "quantifier": "every text, every state of the service", "why_tests_cant": "There is no bound on texts: escapes, number spellings and repeated members combine freely.", "anchors": ["internal/api/shard/endpoints/namespaceendpoint.go:Create", "internal/api/shard/endpoints/namespaceendpoint.go:Update", "internal/api/shard/dto/namespacecreaterequest.go:NamespaceCreateRequest", "internal/api/shard/dto/namespaceupdaterequest.go:NamespaceUpdateRequest"]}
{"id": "C86", "title": "Answers are the ones the API documentation announces", "statement": "Every request to a documented route is answered with one of the statuses documented for it in docs/swagger.yaml and with a body of the documented schema.", "quantifier": "every request to a documented route, every state of the service", "why_tests_cant": "Which statuses can occur is a question about all requests and states.", "anchors": ["internal/api/shard/endpoints/namespaceendpoint.go:Create", "internal/api/shard/endpoints/namespaceendpoint.go:Get", "internal/api/shard/endpoints/namespaceendpoint.go:List", "internal/api/shard/endpoints/namespaceendpoint.go:Update"]}
{"id": "C87", "title": "Similarity is the factor-weighted mean of the Jaccard indices", "statement": "The similarity of two profiles is, up to rounding, 100 times the mean of the Jaccard indices of likes and of dislikes, weighted by the size of the union of the likes and by dislikeFactor times the size of the union of the dislikes.", "quantifier": "every two profiles built through the API, every factor in [0, 1], every permitted fusion of the floating-point operations", "why_tests_cant": "Seven rounded operations and a truncation meet; their worst case over all sizes and factors is not among any sample.", "anchors": ["internal/domain/profile.go:ComputeSimilarity", "internal/domain/profile.go:computeSimilarityBetweenSets"]}
{"id": "C88", "title": "Whatever a file contains, every call on it returns", "statement": "Opening, recovering, loading, flushing and closing a delta file, opening and closing an index file, and every call of the database iterator end with a result or an error: they neither panic nor loop forever. An iteration over a database file ends after at most as many entries as the file can hold.", "quantifier": "every content of the file, every pointer position, open or closed, every script of failing reads, writes, seeks and truncations (memory taken as unlimited; SetPrevious given non-nil data)", "why_tests_cant": "Corrupt files are not enumerable, and the loops that could hang (ReadFull, copying, zero filling, skipping, scanning for records) depend on how each read and write comes back.", "anchors": ["internal/infra/delta/protocol.go:RecoverTo", "internal/infra/delta/storagefactory.go:Open", "internal/infra/index/storagefactory.go:Open", "internal/infra/recdb/iterator.go:Next", "internal/helpers/io.go:SkipReading", "internal/helpers/io.go:WriteZeros"]}
{"id": "C89", "title": "A read error during recovery loses nothing", "statement": "If a read fails while a delta file is being recovered, Recover reports an error and the records stay in the file.", "quantifier": "every content of the file, every script of failing operations, up to 2^32 records (the counter of the file format)", "why_tests_cant": "A disk error at a particular read is not produced by the tests, and its effect depends on which of the reads of which record it hits.", "anchors": ["internal/infra/delta/protocol.go:RecoverTo", "internal/infra/delta/storagefactory.go:Recover"]}
{"id": "C90", "title": "Reading an entry asks for no more memory than the entry occupies", "statement": "ReadEntry allocates at most twice the bytes the entry occupies in the file (the slices and the buffers of encoding/binary), whatever lengths the file declares.", "quantifier": "every content of the file, every script of failing reads", "why_tests_cant": "A length field of four bytes decides the size of an allocation; the tests only read entries they have written.", "anchors": ["internal/infra/recdb/likeprotocol.go:ReadEntryData", "internal/infra/recdb/protocol.go:ReadEntry"]}
{"id": "C91", "title": "A delta file has one user at a time", "statement": "While a storage is open on a delta file no other storage can be opened on it, so that what either of them flushed is found later.", "quantifier": "every history of the first storage, every interleaving of whole calls of any number of storages, with fewer than 2^32 operations in all (the counter of the file format; beyond it see C98)", "why_tests_cant": "The loss needs two openers and a particular order of their calls; tests open each file once.", "anchors": ["internal/infra/delta/storagefactory.go:OpenMaybeRecover", "internal/infra/delta/storagefactory.go:Open", "internal/infra/delta/storage.go:flushHeader"]}
{"id": "C92", "title": "A closed storage saves nothing and says so", "statement": "After Close of the delta or index storage no call changes the file, and every Flush and Close returns an error, so that nothing handed to a closed storage is said to be saved.", "quantifier": "every storage that is closed, every I/O fault before, every sequence of later calls", "why_tests_cant": "Buffered writers accept data and hide the state of the file; tests never use a storage after Close.", "anchors": ["internal/infra/delta/storage.go:Flush", "internal/infra/delta/storage.go:Close", "internal/infra/index/storage.go:Close"]}
{"id": "C93", "title": "Searching a slice looks at few elements", "statement": "BinaryIndexOf and BinaryIndexOfClosest look at no more than k + 3 elements of a slice of at most 2^k + 1 elements, sorted or not, and their result depends on no other element.", "quantifier": "every slice, every needle, every element type", "why_tests_cant": "A test can time one slice; a wrong midpoint or bound makes only some slices slow.", "anchors": ["internal/helpers/arrays.go:BinaryIndexOf", "internal/helpers/arrays.go:BinaryIndexOfClosest"]}
{"id": "C94", "title": "A power failure loses nothing that was flushed", "statement": "When the power fails while a delta file is open or after it was closed, the file can be opened again and has every operation that was in it or was flushed, and no other.", "quantifier": "every content the file was opened with, every sequence of calls, every moment, every choice of the blocks and the length that had reached the disk, with fewer than 2^32 operations in all (the counter of the file format; beyond it see C98)", "why_tests_cant": "A test process cannot lose what it wrote; the operating system keeps it until the machine stops.", "anchors": ["internal/infra/delta/storage.go:Flush", "internal/infra/delta/storage.go:Close", "internal/infra/delta/protocol.go:RecoverTo", "internal/infra/delta/storagefactory.go:OpenMaybeRecover"]}
{"id": "C95", "title": "Agreeing on one more item never makes two users less similar", "statement": "If two users both like an item, or both dislike an item that they did not both like, the similarity of their profiles does not fall.", "quantifier": "every pair of profiles, item, dislike factor in [0,1], and every way the compiler may fuse the arithmetic", "why_tests_cant": "The fall hides in truncation and in single rounding errors of rare combinations of sizes; no sample of profiles excludes it.", "anchors": ["internal/domain/profile.go:ComputeSimilarity", "internal/domain/profile.go:computeSimilarityBetweenSets", "internal/domain/profile.go:Like", "internal/domain/profile.go:Dislike"]}
{"id": "C96", "title": "Disagreeing on one more item never makes two users more similar", "statement": "If a user likes or dislikes an item new to them and the other user does not share that opinion, the similarity of their profiles does not rise.", "quantifier": "every pair of profiles, item, dislike factor in [0,1], and every way the compiler may fuse the arithmetic", "why_tests_cant": "The rise hides in truncation and rounding for rare combinations of sizes; no sample of profiles excludes it.", "anchors": ["internal/domain/profile.go:ComputeSimilarity", "internal/domain/profile.go:computeSimilarityBetweenSets", "internal/domain/profile.go:Like", "internal/domain/profile.go:Dislike"]}
{"id": "C97", "title": "A FileBuffer keeps to its own memory", "statement": "The bytes of a FileBuffer change only through its own calls, and its calls change no slice of the program except the one given to Read.", "quantifier": "every session of calls on a FileBuffer, made empty or from a slice, between any other steps of the program", "why_tests_cant": "Whether memory is shared depends on the capacities that append happens to choose; tests with literals never keep the slice they pass.", "anchors": ["internal/helpers/file_buffer.go:NewFileBuffer", "internal/helpers/file_buffer.go:Bytes", "internal/helpers/file_buffer.go:Read", "internal/helpers/file_buffer.go:Write", "internal/helpers/file_buffer.go:Truncate"]}
{"id": "C98", "title": "The storages keep any number of entries", "statement": "Whatever was added and flushed is there after Close and Open, however many operations or ids there were; no call reports success and then loses entries because of their number.", "quantifier": "every history of calls on the delta storage and on the index, of any length, every map iteration order, every buffer size", "why_tests_cant": "The counters of both file formats have 32 bits; a test would have to write billions of records.", "anchors": ["internal/infra/delta/storage.go:Flush", "internal/infra/delta/storagefactory.go:Open", "internal/infra/index/storage.go:Close", "internal/infra/index/storagefactory.go:Open"]}
{"id": "C99", "title": "Reading works with every io.Reader", "statement": "SkipReading and the decoders of all three file formats accept every reader that io.Reader allows, also one that reports EOF together with the last bytes: what is in the stream completely is skipped or read, and without an error.", "quantifier": "every such reader, every chunking, every stream, every value", "why_tests_cant": "Files, buffers and bytes.Reader report EOF by itself, so tests with them never meet the other kind of reader.", "anchors": ["internal/helpers/io.go:SkipReading", "internal/infra/recdb/protocol.go:ReadEntry", "internal/infra/delta/protocol.go:ReadEntry", "internal/infra/index/protocol.go:ReadEntry"]}
{"id": "C100", "title": "A namespace works on its own files only", "statement": "Starting a namespace reads and changes only its own .delta, .index and .recdb files. Starting several namespaces, each one finds and leaves what it would find and leave if it were started alone, in whatever order and whether the others start or fail; the list of namespaces is not touched.", "quantifier": "every disk, every set of faults, buffer size and map order, every like storage factory, every list of namespaces with different valid names and the same base directory whose starts return", "why_tests_cant": "Tests start one namespace in an empty directory; independence of every other file is a statement about all disks.", "anchors": ["internal/domain/likenamespace.go:Start", "internal/domain/namespaceservice.go:Start"]}
{"id": "C101", "title": "Deleting a namespace deletes its data", "statement": "After a namespace was deleted, a namespace created anew under the same name knows none of the old operations and positions.", "quantifier": "every service state, every content of the files, every request, every start that succeeds", "why_tests_cant": "Needs the service, the file names and the storages together; the tests of each use the others as stubs or not at all.", "anchors": ["internal/domain/namespaceservice.go:DeleteNamespace", "internal/domain/namespaceservice.go:CreateNamespace", "internal/domain/likenamespace.go:Start"]}
{"id": "C102", "title": "Renaming a namespace keeps its data", "statement": "A namespace that is renamed to a name not in use starts under the new name with the operations and positions it had.", "quantifier": "every namespace, every valid new name, every content of the files, every number of starts under other names in between", "why_tests_cant": "The code says TODO; which data a start finds then depends on all files of the directory.", "anchors": ["internal/domain/likenamespace.go:Rename", "internal/domain/likenamespace.go:Start"]}
{"id": "C103", "title": "Every accepted name can name files", "statement": "A name that the service accepts can be used for the files of the namespace: with the extension it is no longer than file systems allow (255 bytes).", "quantifier": "every valid name, every limit", "why_tests_cant": "Tests use short names.", "anchors": ["internal/domain/valueobjects/namespacename.go:ParseNamespaceName", "internal/domain/likenamespace.go:openMaybeRecoverDeltaStorage"]}
{"id": "C104", "title": "Settings come from the environment, then .env, then defaults", "statement": "The server takes REC_PATH, REC_HOST and REC_PORT from the environment of the process; a variable that is not set there from the file .env, if there is one; otherwise the default. Unusable ports give the default. No other variable matters.", "quantifier": "every environment, every content of .env or none, every value of the variables", "why_tests_cant": "The combinations of set, empty, unset and unusable values in two places are unbounded; main is never run by a test.", "anchors": ["main.go:main", "internal/api/shard/config.go:NewConfigFromEnv", "internal/domain/namespaceservice.go:NewNamespaceService"]}
{"id": "C105", "title": "The ordered slice helpers work for floats", "statement": "For float32 and float64 elements, BinaryIndexOf finds an equal element of a sorted slice if there is one, BinaryIndexOfClosest finds an element of smallest distance, PutSavingOrder keeps a sorted slice without repetitions sorted and puts a value in once, and InsertSavingOrder keeps it sorted.", "quantifier": "every slice of float32 or float64 values and every value, with infinities and NaN where the claim says so", "why_tests_cant": "The type sets allow floats but every test uses integers; rounding errors of differences depend on all exponents and lengths.", "anchors": ["internal/helpers/arrays.go:BinaryIndexOf", "internal/helpers/arrays.go:Deviation", "internal/helpers/arrays.go:BinaryIndexOfClosest", "internal/helpers/arrays.go:InsertSavingOrder", "internal/helpers/arrays.go:PutSavingOrder"]}
{"id": "C106", "title": "Flushing prints nothing of the stored operations", "statement": "Flush and Close write to the file of the storage; what the program prints while they run says nothing about the stored operations, and there is not more of it the more is stored.", "quantifier": "every execution of the delta storage, every number of Flush calls, whatever the addresses of the file and the protocol object", "why_tests_cant": "Tests look at the storage and the file, not at the standard output; what can be read out of the text, and how much it is, is a matter of all contents.", "anchors": ["internal/infra/delta/storage.go:flushHeader", "internal/infra/delta/storage.go:Flush"]}
{"id": "C107", "title": "Of several calls of Open at the same time one gets the file", "statement": "When several goroutines or processes call Open on one delta or index file at the same time, at most one of the calls succeeds, so that nothing stored through it is overwritten by another.", "quantifier": "every content of the file, any number of calls, every order of the steps they consist of", "why_tests_cant": "Tests call Open once, or once after the other; the orders in which simultaneous calls take turns cannot be enumerated by running them.", "anchors": ["internal/infra/delta/storagefactory.go:Open", "internal/infra/index/storagefactory.go:Open", "internal/infra/index/storage.go:load"]}
{"id": "C108", "title": "Starting a running namespace again is refused and does it no harm", "statement": "Start of a namespace whose worker is running returns an error, starts no second worker and leaves the three files as they are.", "quantifier": "every use the running namespace has been put to, every factory and file buffer size, no I/O errors", "why_tests_cant": "The states a running namespace can be in are unbounded, and what a refused start did to the files shows only later.", "anchors": ["internal/domain/likenamespace.go:Start", "internal/domain/likenamespace.go:openMaybeRecoverDeltaStorage", "internal/infra/delta/storagefactory.go:OpenMaybeRecover"]}
{"id": "C109", "title": "A power failure loses nothing of an index that was closed", "statement": "After Close of an index has returned without an error, a power failure leaves a file that can be opened and gives the pairs the index had. If the power fails while the index is open, the file gives the pairs it was opened with or is refused.", "quantifier": "every index file, every sequence of Put and Remove, every order in which Close visits the map, every block size, every subset of the written blocks and every length that is on disk when the power fails", "why_tests_cant": "Which blocks reach the disk is up to the system; the outcomes cannot be enumerated, and a test cannot cut the power.", "anchors": ["internal/infra/index/storage.go:Close", "internal/infra/index/storage.go:saveHeader", "internal/infra/index/storage.go:saveEntries", "internal/infra/index/storage.go:load"]}
{"id": "C110", "title": "Requests that run at the same time see whole values", "statement": "A request that reads the name of a namespace, or the list of namespaces, while other requests change it, gets the name or the list as it was before one of these changes or after it, and reads nothing else in memory.", "quantifier": "every order in which the words of a string or slice are read and stored, every interleaving with any number of writers, all names, all memory contents", "why_tests_cant": "A torn read needs a switch between two machine instructions; a test run practically never hits it, and its effect depends on what lies next in memory.", "anchors": ["internal/domain/likenamespace.go:GetName", "internal/domain/likenamespace.go:Rename", "internal/domain/namespaceservice.go:GetNamespaces", "internal/domain/namespaceservice.go:CreateNamespace"]}
{"id": "C111", "title": "A refused client is told which rule a field breaks", "statement": "When a field of a creation request is refused, the message about it tells the rule its value breaks, so that values which break different rules get different messages.", "quantifier": "every request body with a finite factor (JSON has no others), every state of the service", "why_tests_cant": "The message depends on which of several tags fails first and on two stages of validation; a table of examples shows only the combinations in it.", "anchors": ["internal/api/shard/endpoints/helpers.go:getFieldErrorMsg", "internal/api/shard/endpoints/helpers.go:AbortWithBindingErrors", "internal/api/shard/dto/namespacecreaterequest.go:NamespaceCreateRequest"]}
{"id": "C112", "title": "A start that fails leaves no file open", "statement": "A Start of a namespace that returns an error leaves none of the three files open, and one that succeeds holds each of them open once until the worker ends.", "quantifier": "all contents of the three files, every like storage factory, every fault of opening, reading and writing, every number of attempts", "why_tests_cant": "Open descriptors show in no result; which of them a failing start forgets depends on the call that failed and on what Close does then.", "anchors": ["internal/domain/likenamespace.go:Start", "internal/domain/likenamespace.go:openMaybeRecoverDeltaStorage", "internal/domain/likenamespace.go:openMaybeResetIndexStorage", "internal/domain/likenamespace.go:openMaybeRecoverLikeStorage", "internal/infra/delta/storage.go:Close", "internal/infra/index/storage.go:Close"]}
{"id": "C113", "title": "IndexOf finds the first occurrence", "statement": "IndexOf returns the position of the first element equal to the needle, in whatever order the slice is, and -1 exactly if there is none. On an ascending slice BinaryIndexOf finds an element exactly if IndexOf does.", "quantifier": "every comparable element type with its own equality (that of floats, where NaN equals nothing, included), every slice, every needle", "why_tests_cant": "Slices are unbounded and the element type is a parameter; the agreement with the binary search relates two algorithms on all inputs.", "anchors": ["internal/helpers/arrays.go:IndexOf", "internal/helpers/arrays.go:BinaryIndexOf"]}
{"id": "C114", "title": "A recovery that failed can be repeated", "statement": "If Recover of a delta file reports an error (a read, a write or the truncation failed), opening the file again without errors gives what opening it would have given had there been no error.", "quantifier": "every file with the magic bytes, every pattern of failing reads, writes and truncations, every size of the copy buffer", "why_tests_cant": "Tests use a file that never fails; the failure points and the contents are unbounded.", "anchors": ["internal/infra/delta/storagefactory.go:Recover", "internal/infra/delta/storagefactory.go:OpenMaybeRecover", "internal/infra/delta/protocol.go:RecoverTo"]}
{"id": "C115", "title": "Two users close to a third are close to each other", "statement": "The distance of two users, what their similarity lacks from 100, is at most the distance of the first to a third user plus the distance of the third to the second (triangle inequality), up to rounding.", "quantifier": "all triples of profiles built with the profile methods, every dislike factor from 0 to 1, every way of fusing the weighted sum", "why_tests_cant": "A statement about triples of sets of any size and about binary32 rounding; tests compare single pairs.", "anchors": ["internal/domain/profile.go:ComputeSimilarity", "internal/domain/profile.go:computeSimilarityBetweenSets"]}
{"id": "C116", "title": "Similarity does not depend on what the items are called", "statement": "Giving the items other ids (different ones to different items), other user ids, or making the calls in another order does not change the similarity of two users at all.", "quantifier": "all pairs of profiles, every injective renaming, every factor (also NaN or infinite), every way of fusing the weighted sum", "why_tests_cant": "Quantifies over all renamings; the search in the sorted slices takes different paths under each.", "anchors": ["internal/domain/profile.go:ComputeSimilarity", "internal/domain/profile.go:computeSimilarityBetweenSets", "internal/helpers/arrays.go:BinaryIndexOf"]}
{"id": "C117", "title": "At dislike factor 0.5 likes and dislikes have equal effect", "statement": "With a dislike factor of 0.5 (the comment over SetDislikeFactor) exchanging what two users like with what they dislike does not change their similarity.", "quantifier": "all pairs of profiles with up to 2^24 liked and disliked items, every factor from 0 to 1, every way of fusing the weighted sum", "why_tests_cant": "A relation between two runs on all pairs of profiles; no example shows that it holds for every pair.", "anchors": ["internal/domain/likenamespace.go:SetDislikeFactor", "internal/domain/profile.go:ComputeSimilarity"]}
{"id": "C118", "title": "The listing is what the answers said", "statement": "Between two GETs of the collection, with any requests in between, the second listing is the first one followed by exactly the namespaces whose POST was answered 201, in that order; requests that are not answered with a creation change nothing.", "quantifier": "all running services, all finite conversations of requests of any method, path and body, every outcome of the saves", "why_tests_cant": "Quantifies over all conversations of any length; a test plays one.", "anchors": ["internal/api/shard/endpoints/namespaceendpoint.go:RegisterRoutes", "internal/api/shard/endpoints/namespaceendpoint.go:Create", "internal/api/shard/endpoints/namespaceendpoint.go:List", "internal/domain/namespaceservice.go:CreateNamespace"]}
{"id": "C119", "title": "What Close of an index reports is true", "statement": "If calls on the file of an open index fail, Close ends with success or an error. If it reports success, opening the file again gives the index as it was. If it reports an error, the next Open refuses the file or finds the index as it was opened or as it was to be saved.", "quantifier": "All histories of the index, buffer sizes and visiting orders of the map; every choice of the failing writes and closes and of the number of bytes a failing write still writes.", "why_tests_cant": "Tests use files that do not fail; the failing call and the byte at which it fails would have to be enumerated for every content of the index.", "anchors": ["internal/infra/index/storage.go:Close", "internal/infra/index/storage.go:saveHeader", "internal/infra/index/storage.go:saveEntries"]}
{"id": "C120", "title": "What Flush and Close of the delta storage report is true", "statement": "If calls on the file of an open delta storage fail, Flush and Close end with success or an error. A Flush that reports success has written what it writes when nothing fails; after a Close that reports success opening the file gives every answer the storage gave. After a failed Flush or Close, opening the file again gives for every pair the answer of the last successful Flush or the answer at the time of the failing call.", "quantifier": "All histories of the storage, buffer sizes and visiting orders of the map; every choice of the failing writes and closes and of the number of bytes a failing write still writes.", "why_tests_cant": "Tests use files that do not fail; the failing call and the byte at which it fails would have to be enumerated for every content of the storage.", "anchors": ["internal/infra/delta/storage.go:Flush", "internal/infra/delta/storage.go:flushHeader", "internal/infra/delta/storage.go:flushEntries", "internal/infra/delta/storage.go:Close"]}
{"id": "C121", "title": "A failed read never makes the record iterator skip or invent an entry", "statement": "If reads of a record database fail, Next ends with an error; an error is never taken for an entry or for the end of the database. The next call of Next returns the entry whose turn it is (or fails again), and after Rewind the iteration starts from the first entry. The file is never changed.", "quantifier": "All databases of like entries with any bytes behind them, all buffer sizes, all sequences of HasNext, Next and Rewind, every choice of the failing reads and of the number of bytes a failing read still delivers.", "why_tests_cant": "Tests read files that do not fail; the failing read and the byte at which it fails would have to be enumerated for every database and every sequence of calls.", "anchors": ["internal/infra/recdb/iterator.go:NewIterator", "internal/infra/recdb/iterator.go:Rewind", "internal/infra/recdb/iterator.go:Next", "internal/infra/recdb/protocol.go:ReadEntry"]}
{"id": "C122", "title": "An error while a storage is opened does no lasting harm", "statement": "If calls on the file fail while an unlocked delta or index file is opened, opening ends with a storage or an error. A storage that was opened answers with everything the file holds. After an error, opening the file again, when nothing fails, gives everything the file held before.", "quantifier": "All contents of the file, buffer sizes, Open and OpenMaybeRecover; every choice of the failing reads and writes and of the number of bytes a failing call still transfers.", "why_tests_cant": "Tests use files that do not fail; the failing call and the byte at which it fails would have to be enumerated for every content of the file.", "anchors": ["internal/infra/delta/storagefactory.go:Open", "internal/infra/delta/storagefactory.go:OpenMaybeRecover", "internal/infra/index/storagefactory.go:Open", "internal/infra/index/storage.go:load"]}
{"id": "C123", "title": "The delta file is an append-only log of the operations", "statement": "A Flush appends to the file the operations made since the last one, those of each user in the order in which they were made, and leaves what the file held where it is; a Flush without new operations leaves the file as it is. Closing the storage keeps everything too.", "quantifier": "All histories of the storage, all buffer sizes and visiting orders of the map, all sequences of Add and Flush.", "why_tests_cant": "Tests compare a few files; that no sequence of calls moves, drops or reorders a record is a statement about all histories and all orders in which Go visits a map.", "anchors": ["internal/infra/delta/storage.go:Add", "internal/infra/delta/storage.go:Flush", "internal/infra/delta/storage.go:flushEntries", "internal/infra/delta/storage.go:Close"]}
{"id": "C124", "title": "What is removed from an index disappears from its file", "statement": "After Close every pair in the file is a pair of the index: an id that was removed, or whose index was changed, has left no trace in the file.", "quantifier": "All histories of the index, all buffer sizes, visiting orders of the map and places in the file.", "why_tests_cant": "Tests look at what Open returns, not at the bytes behind the announced pairs; the histories and sizes would have to be enumerated.", "anchors": ["internal/infra/index/storage.go:Remove", "internal/infra/index/storage.go:Close", "internal/infra/index/storage.go:saveEntries"]}
{"id": "C125", "title": "A Close of an index that failed can be repeated", "statement": "If Close of an index failed, Close called again when nothing fails reports success, and the file then holds all pairs, including those put since. However often Close was called before, a success it reports is true.", "quantifier": "All histories of the index with any number of Closes in between, each with any choice of failing writes and closes, all buffer sizes and visiting orders of the map, with and without a closer.", "why_tests_cant": "Tests of failing calls cover single failures; here any number of half-finished Closes precede the one that succeeds, and the bytes they left could take any value.", "anchors": ["internal/infra/index/storage.go:Close", "internal/infra/index/storage.go:saveHeader", "internal/infra/index/storage.go:saveEntries"]}
{"id": "C126", "title": "Calls that wait together share one wait of the worker", "statement": "The worker of a namespace waits 50 ms for the queue to fill before it processes; the calls that are in the queue by then are all answered after that one wait, however many they are.", "quantifier": "All histories of a namespace with any number of callers, all queue contents, all moments at which steps happen; the lower bound for every speed of the rest, the upper bound whenever no time is lost elsewhere.", "why_tests_cant": "A test measures the time of one run on one machine with a few callers; the bounds are about every interleaving and every queue, and the lower bound about every speed.", "anchors": ["internal/domain/likenamespace.go:Start", "internal/domain/likenamespace.go:NewLikeNamespace"]}
{"id": "C127", "title": "A Close of the delta storage that failed can be repeated", "statement": "If Close of the delta storage failed, Close called again when nothing fails reports success, and opening the file then gives everything that was added, including what was added in between.", "quantifier": "All histories of a storage with any number of Flush and Close calls that fail in between, every place at which they fail, every order in which the map of new deltas is visited, both kinds of files; fewer than 2^32 operations in all.", "why_tests_cant": "A test can make one write fail once and compare one file; how failed calls, later additions and repeated closes combine has no end.", "anchors": ["internal/infra/delta/storage.go:Close", "internal/infra/delta/storage.go:Flush", "internal/infra/delta/protocol.go:WriteLocked"]}
{"id": "C128", "title": "A power failure while a delta file is recovered loses nothing", "statement": "When the power fails while a delta file is being recovered, opening the file again gives what the recovery would have given.", "quantifier": "All files that need recovery, all moments of the failure, and every way in which the disk has taken the blocks of the file and its length independently of each other.", "why_tests_cant": "A test cannot cut the power; and each combination of written and unwritten blocks is a different file.", "anchors": ["internal/infra/delta/storagefactory.go:Recover", "internal/infra/delta/protocol.go:RecoverTo", "internal/infra/delta/storagefactory.go:OpenMaybeRecover"]}
{"id": "C129", "title": "Comparing two users looks at few of their items", "statement": "ComputeSimilarity looks, for each item of the profile it is called on, at that item and at a number of items of the other profile that grows with the logarithm of its size only. It matters which of the two is asked: every item of the profile asked is looked at.", "quantifier": "All profiles of any size, sorted or not, all factors; every way the sums may be compiled.", "why_tests_cant": "A benchmark measures a few sizes on one machine; the bound is about all sizes.", "anchors": ["internal/domain/profile.go:ComputeSimilarity", "internal/domain/profile.go:computeSimilarityBetweenSets", "internal/helpers/arrays.go:BinaryIndexOf"]}
{"id": "C130", "title": "Opening a delta file asks for memory in proportion to the file", "statement": "For the operations of a delta file Open asks for at most 1840 bytes of memory for each 18 bytes behind the header, about 102 times the length of the file, whatever the header of the file announces and whether Open succeeds or fails. It asks for at least 16 bytes for each operation it has read, and each user takes at least 1600 bytes, even one with a single operation.", "quantifier": "All files (damaged, truncated, with any number in the header), all faults of the reads, every way append may grow a full slice within the bounds of Go's growth (by a quarter at least, to three times at most).", "why_tests_cant": "A test opens a few small files; a header that announces four billion operations is one value of many, and a memory profile covers one file only.", "anchors": ["internal/infra/delta/storagefactory.go:Open"]}
{"id": "C131", "title": "A similarity of 100 means agreement in everything, a similarity of 0 in nothing", "statement": "Two users score 100 only if they like the same items and dislike the same items, and they score 0 only if they have no like and no dislike in common.", "quantifier": "All profiles built by the calls of Profile, of any size below 2^60, all dislike factors from 0 to 1, every way the sums may be compiled.", "why_tests_cant": "The result is a rounded float: whether some pair of profiles that differ is rounded up to 100, or one that agrees somewhere down to 0, depends on sizes no test tries.", "anchors": ["internal/domain/profile.go:ComputeSimilarity", "internal/domain/profile.go:computeSimilarityBetweenSets"]}
{"id": "C132", "title": "A delta file that Open accepts can be continued", "statement": "When Open accepts a file, whoever wrote it, then what is added to the storage is found again after Close and the next Open, and every other answer is the one Open gave.", "quantifier": "All files Open accepts (any version byte, any checksums, any bytes behind the announced records), all finite sequences of Add and Flush after it, every order of the map, every buffer size.", "why_tests_cant": "Tests continue files the storage has written itself; the claim is about every content Open lets through.", "anchors": ["internal/infra/delta/storagefactory.go:Open", "internal/infra/delta/storage.go:flushEntries", "internal/infra/delta/storage.go:flushHeader", "internal/infra/delta/storage.go:Close"]}
{"id": "C133", "title": "A file of another version or type is refused", "statement": "A file whose header names a format version other than the one the program knows, or (for the database of profiles) another type of entries, is refused when it is opened, and left as it is.", "quantifier": "All contents of the three kinds of files (delta, index, database of profiles), every version byte, every entry type, all buffer sizes.", "why_tests_cant": "The version byte takes 256 values and the type 2^64; the tests write only version 1 and type LIKE. That nothing is ever compared with the version is a statement about all files.", "anchors": ["internal/infra/delta/storagefactory.go:Open", "internal/infra/index/storage.go:load", "internal/infra/recdb/iterator.go:NewIterator", "internal/infra/recdb/protocol.go:ReadHeader"]}
{"id": "C134", "title": "The shard listens on the configured host", "statement": "The shard listens on the host named by REC_HOST, whatever kind of address it is (name, IPv4 or IPv6), and on the port in decimal.", "quantifier": "every value of REC_HOST and REC_PORT", "why_tests_cant": "All strings; main and the listener are never run by a test, and what the net package makes of the joined text is not in the repository.", "anchors": ["internal/api/shard/config.go:GetHostPort", "internal/api/shard/application.go:NewApplication", "internal/api/shard/application.go:Run"]}
{"id": "C135", "title": "How often the storages call the file", "statement": "Flush and Close of the delta storage and Open and Close of the index storage transfer their entries in blocks of the size of the buffer: one call of the file for each 4096 bytes begun, plus one for the header, one for the lock byte and one for the close where they occur. Open of the delta storage is not buffered: it makes four reads for every operation in the file, plus two for prefix and header and one write of the lock byte, exactly.", "quantifier": "every storage state, every number of entries, every buffer size of at least 8 (13 for reading) bytes, every visiting order of the maps, every later behaviour of the file", "why_tests_cant": "The number of calls depends on how fields straddle buffer boundaries, for every number of entries; the tests use an in-memory file with a handful of entries and count nothing.", "anchors": ["internal/infra/delta/storage.go:Flush", "internal/infra/delta/storage.go:Close", "internal/infra/delta/storagefactory.go:Open", "internal/infra/index/storage.go:Close", "internal/infra/index/storage.go:load"]}
{"id": "C136", "title": "Saving the namespaces from several requests at once", "statement": "When several requests save namespaces.json at the same time and every save succeeds, the file afterwards holds the list that one of them saved. REFUTED: of any two saves with texts of different lengths both can succeed and leave the shorter text followed by the end of the longer one, which the next start rejects, so every namespace is forgotten. What holds: at every moment of every interleaving the file holds its old content, the list of one of the saves, or a text that loading rejects (two lists are never read as a third); if the longest one is written last the file is exactly that list; a save that overlaps no other leaves exactly its list.", "quantifier": "every number of saves, every list of each, every earlier content of the file, every interleaving of their opens, writes and closes, every set of saves that fail, every moment at which the process stops", "why_tests_cant": "The damage needs the truncations of both saves to come before both writes; the tests save from one goroutine, and no finite set of schedules shows that a mixture is never accepted.", "anchors": ["internal/domain/namespaceservice.go:SaveNamespaces", "internal/domain/namespaceservice.go:LoadNamespaces", "internal/domain/namespaceservice.go:CreateNamespace"]}
{"id": "C137", "title": "Dying while a profile of a database is rewritten", "statement": "If the process dies while SetPrevious rewrites an entry of a recdb file, the next process finds the old profile or the new one, or is told that the entry is damaged, and still gets at every other entry. REFUTED twice: after 13 bytes the new user is returned with the likes and dislikes of the old one, without an error; and a torn entry can make every other entry behind it unreachable, whatever is called. What holds: no byte outside the entry changes; the entries in front of it are returned as before; the torn entry either fails to be read or is read as some entry of the same capacity, and then all entries behind it are returned as before; changing the deletion mark alone leaves the old file or the new one.", "quantifier": "every database (entries, capacities, trailing bytes), every entry, every replacement of the same capacity, every sequence of iterator calls before it with nothing read ahead, every number of bytes after which the process dies, every buffer size of both processes, every sequence of calls afterwards", "why_tests_cant": "A unit test cannot kill the process between two bytes of a write, and the outcome depends on which bytes of two profiles get mixed.", "anchors": ["internal/infra/recdb/iterator.go:SetPrevious", "internal/infra/recdb/protocol.go:WriteEntry", "internal/infra/recdb/iterator.go:Next"]}
{"id": "C138", "title": "Repeating a SetPrevious that failed", "statement": "If SetPrevious returns an error because a write failed, the entry is unchanged and the call can be repeated once the file works again: if the repetition reports success, the entry and nothing else has been replaced. REFUTED twice: the failed call can leave the new user with the old likes; and the repetition writes one capacity in front of the place where the first call stopped, so if nothing had been written and the entry in front has the same capacity, that entry is overwritten, the intended one stays old, and success is reported. What holds, whichever writes fail: SetPrevious returns, with success only if exactly the entry was replaced; after an error only bytes of that entry have changed, a first part of it being new; a process that opens the file then reads all entries in front and, unless it fails at the entry, some entry of the same capacity and all that follow. The place where a repetition writes is proved exactly.", "quantifier": "every database, every entry and replacement of the same capacity, every sequence of iterator calls before with nothing read ahead, every script of failing and short writes, every buffer size", "why_tests_cant": "The tests of the iterator use files that never fail; which entry is hit depends on how many bytes the failing write had written and on the capacities around it.", "anchors": ["internal/infra/recdb/iterator.go:SetPrevious", "internal/infra/recdb/protocol.go:WriteEntry", "internal/helpers/io.go:WriteZeros"]}
{"id": "C139", "title": "A profile replaced with success and a power failure", "statement": "If the power fails after SetPrevious has returned success, the next process finds the new profile in its place, or the old one, or an error; the other entries are untouched. REFUTED: nothing is forced to disk, so an entry that crosses from one block into the next can be on disk half new and half old, and is then read without an error as a profile nobody stored. What holds, for every block size and every choice of what reached the disk: only bytes of that entry differ, each being the old or the new one; a process that opens the file reads all entries in front and, unless it fails at the entry, some entry of the same capacity and all that follow; an entry that lies within one block is the old or the new one if the block is.", "quantifier": "every database, every entry and replacement of the same capacity, every sequence of iterator calls before with nothing read ahead, every block size, every choice per block of how many of the writes reached the disk", "why_tests_cant": "A test cannot cut the power; which blocks reach the disk is up to the kernel, and entries cross block borders depending on the sizes of all entries in front.", "anchors": ["internal/infra/recdb/iterator.go:SetPrevious", "internal/infra/recdb/protocol.go:WriteEntry", "internal/infra/recdb/iterator.go:NewIterator"]}
{"id": "C140", "title": "SetPrevious refuses what does not fit and can follow itself", "statement": "The capacity must be left unchanged: SetPrevious refuses a replacement whose capacity is not that of the entry last returned, and every replacement if none has been returned, and then changes nothing; a fitting replacement can be given after another, the last one stays, and the iteration goes on. REFUTED once a Next has failed in between: the failed call has already overwritten the remembered capacity, so a replacement of the wrong capacity is written, over the entry last returned, with success reported, and one of the right capacity is refused. What holds: with no entry returned since the start or a Rewind, every call is refused, whatever the file contains; on a sound database every other capacity is refused, however the entry was reached; with nothing read ahead any number of fitting replacements replace exactly the entry and the calls that follow answer as on the new database.", "quantifier": "every file, iterator and entry (at the start); every sound database, sequence of iterator calls, buffer size, entry, and sequence of replacements", "why_tests_cant": "Tests call SetPrevious once, on the happy path; the state that a failing Next leaves inside of the iterator is visible only to a later SetPrevious.", "anchors": ["internal/infra/recdb/iterator.go:SetPrevious", "internal/infra/recdb/iterator.go:Next", "internal/infra/recdb/iterator.go:Rewind"]}
{"id": "C141", "title": "Several iterators on one database file", "statement": "Two iterators made for the same open file each enumerate all entries, or report an error. REFUTED: they share the position of the file and each reads ahead into a buffer of its own, so the first Next of one can return an entry from the middle of the database without an error, after a Next of the other. What holds: if an iterator is rewound whenever another one was used in between, all of them answer as if they were alone, for any number of iterators and any order of turns.", "quantifier": "every sound database, every number of iterators, every sequence of turns with any calls in each, every buffer size", "why_tests_cant": "Tests use one iterator at a time; what the others see depends on where the read-ahead of 4096 bytes falls among the entries.", "anchors": ["internal/infra/recdb/iterator.go:NewIterator", "internal/infra/recdb/iterator.go:Next", "internal/infra/recdb/iterator.go:Rewind"]}
