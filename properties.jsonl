{"id": "C01", "title": "Training counts equal the multiset of currently trained messages", "statement": "After any sequence of learn, unlearn and scoring calls on a fresh classifier in which every unlearn is given a message (same words, same label) that is currently learned, no learn or unlearn call raises, the message totals equal the number of currently learned spam and ham messages, and for every word the stored spam count and ham count equal the number of currently learned spam and ham messages that contain the word; a word is stored exactly when one of these numbers is non-zero.", "quantifier": "every finite history of learn/unlearn/score calls, every message, every word, with and without bigrams, every set iteration order", "why_tests_cant": "The space of histories is infinite; a unit test fixes one short history, while drift of the counts appears only for particular interleavings of learn and unlearn.", "anchors": ["sbclassifier/classifiers/basic.py::Classifier.learn", "sbclassifier/classifiers/basic.py::Classifier.unlearn", "sbclassifier/classifiers/basic.py::Classifier._add_msg", "sbclassifier/classifiers/basic.py::Classifier._remove_msg"]}
{"id": "C02", "title": "unlearn undoes learn", "statement": "From any state reachable by any calls whatsoever, learning a message and then unlearning the same message with the same label succeeds and restores every word record and both message totals exactly.", "quantifier": "every reachable classifier state, every message, both labels", "why_tests_cant": "Tests check one message on one starting state; the interesting cases are words already present, absent, or present only under the other label.", "anchors": ["sbclassifier/classifiers/basic.py::Classifier.learn", "sbclassifier/classifiers/basic.py::Classifier.unlearn"]}
{"id": "C03", "title": "Training order, word order and repetition are irrelevant", "statement": "The trained state depends only on the multiset of (set of tokens, label) pairs that were learned, where the tokens are the words or, with bigrams, what is derived from them: learning the same messages in any order, with (without bigrams) the words of each message in any order and repeated any number of times, and whatever order Python iterates sets in, gives identical records and totals.", "quantifier": "every list of messages, every permutation of it, every re-ordering/duplication of words in a message, every set iteration order", "why_tests_cant": "There are factorially many permutations and the set iteration order is randomised per process.", "anchors": ["sbclassifier/classifiers/basic.py::Classifier._add_msg"]}
{"id": "C04", "title": "Counts never go negative and no empty record is kept", "statement": "After any sequence of learn and unlearn calls, including unlearning messages that were never learned, both totals and all word counts are non-negative and no stored word has both counts equal to zero (so the documented requirement on records holds; see C135 for what scoring does in such states).", "quantifier": "every finite history of learn/unlearn/score calls without restriction", "why_tests_cant": "The claim is about abusive histories of unbounded length.", "anchors": ["sbclassifier/classifiers/basic.py::Classifier._remove_msg", "sbclassifier/classifiers/basic.py::WordInfo", "sbclassifier/classifiers/basic.py::Classifier.probability"]}
{"id": "C05", "title": "A refused unlearn changes nothing", "statement": "unlearn raises exactly when the corresponding message total is zero; in that case it raises ValueError and every word record and both totals are left as they were.", "quantifier": "every classifier state, every message, both labels", "why_tests_cant": "A test checks one refused call; the claim is that no state exists in which the refusal happens half way.", "anchors": ["sbclassifier/classifiers/basic.py::Classifier._remove_msg"]}
{"id": "C06", "title": "Words not in the message keep their counts", "statement": "learn and unlearn of a message change the stored counts only of words in that message (with bigrams: of the words and pair tokens derived from it), each by exactly one in the count of the given label (never below zero), and change only the total of the given label, by exactly one.", "quantifier": "every state, every message, every word, both labels", "why_tests_cant": "Frame conditions quantify over all words that were not touched.", "anchors": ["sbclassifier/classifiers/basic.py::Classifier._add_msg", "sbclassifier/classifiers/basic.py::Classifier._remove_msg"]}
{"id": "C07", "title": "The probability cache is transparent", "statement": "The result of scoring a message depends only on the trained records and totals: inserting any number of other scoring calls anywhere into a history never changes the outcome (value, evidence or exception) of any later call. Two histories that lead to the same records and totals cannot be told apart by any further calls.", "quantifier": "every history of learn/unlearn/score calls, every insertion of extra score calls, every arithmetic", "why_tests_cant": "Stale-cache defects need a specific order of score and train calls with colliding counts; tests with a fresh classifier never see them.", "anchors": ["sbclassifier/classifiers/basic.py::Classifier.probability", "sbclassifier/classifiers/basic.py::Classifier._add_msg", "sbclassifier/classifiers/basic.py::Classifier._remove_msg"]}
{"id": "C08", "title": "Scoring never raises on a consistently trained classifier", "statement": "After any history in which every unlearn is given a currently learned message, scoring any message (words all of one string type; with bigrams, text words, and None never learned as a word) returns a value in exact arithmetic: no 'token seen in more ham/spam than trained' error, no division by zero, no logarithm of a non-positive number. Without the restriction this fails: unlearning a message that was never learned can make a later score call raise.", "quantifier": "every matched history, every message; plus an explicit unmatched history witnessing the failure", "why_tests_cant": "The error branches are reachable only through histories; absence of a path cannot be tested.", "anchors": ["sbclassifier/classifiers/basic.py::Classifier.spamprob", "sbclassifier/classifiers/basic.py::Classifier.probability"]}
{"id": "C09", "title": "Word probability is strictly between 0 and 1 and equals the documented formula", "statement": "For counts that are consistent with the totals and not both zero, the word probability is (s*x + n*p)/(s+n) with s=.45, x=.5, n=ham+spam count, p the spam-ratio share; it lies strictly between 0 and 1, equals one half exactly when the two ratios agree, is above one half exactly when the spam ratio exceeds the ham ratio. With any monotone rounding of the arithmetic it stays within [0,1].", "quantifier": "all counts and totals; every monotone rounding function fixing the representable constants", "why_tests_cant": "Infinite numeric domain; extreme counts are never in tests.", "anchors": ["sbclassifier/classifiers/basic.py::Classifier.probability"]}
{"id": "C10", "title": "Word probability is monotone in the evidence while the totals are balanced", "statement": "For fixed totals, seeing a word in one more spam message never lowers its spam probability if the spam total is at most eleven times the ham total (an empty total counting as one), or if the word's spam ratio is already at least its ham ratio; symmetrically for ham. The bound is sharp: with 12 spam and 1 ham messages, a word seen in the ham message becomes less spammy when it is also seen in one spam message.", "quantifier": "all consistent counts and totals", "why_tests_cant": "A relation between infinitely many pairs of inputs.", "anchors": ["sbclassifier/classifiers/basic.py::Classifier.probability"]}
{"id": "C11", "title": "Selected clues are the strongest ones", "statement": "Without bigrams, the clues used for a score are distinct words of the message, at most 150, each at distance at least 0.1 from one half; a word of the message that is not used is either closer than 0.1 or at least 150 clues are used and each of them is at least as far from one half.", "quantifier": "every classifier state, every message, every arithmetic with a total order", "why_tests_cant": "The truncation only matters for messages with more than 150 significant words and ties.", "anchors": ["sbclassifier/classifiers/basic.py::Classifier._getclues", "sbclassifier/classifiers/basic.py::Classifier._worddistanceget"]}
{"id": "C12", "title": "The score does not depend on word order or repetition", "statement": "Without bigrams, scoring two messages with the same set of words gives the same score and the same evidence list, bit for bit, or raises in both cases, whatever order Python iterates the set in.", "quantifier": "every state, all messages with equal word sets, every set iteration order, every arithmetic (also rounded floating point)", "why_tests_cant": "Hash randomisation makes the iteration order differ per process; a floating-point product depends on order, so only a proof that the order is canonical settles it.", "anchors": ["sbclassifier/classifiers/basic.py::Classifier.spamprob", "sbclassifier/classifiers/basic.py::Classifier._getclues"]}
{"id": "C13", "title": "Bigram tiling never uses a token twice", "statement": "With bigrams (and None never learned as a word), the words chosen as clues come from pairwise disjoint positions of the message; every significant candidate (a word, or a pair of adjacent words, distance at least 0.1) that is not chosen shares a position with a chosen candidate that is at least as strong, or is cut off by the limit of 150.", "quantifier": "every state, every message", "why_tests_cant": "Greedy tiling over arbitrary overlaps.", "anchors": ["sbclassifier/classifiers/basic.py::Classifier._getclues"]}
{"id": "C14", "title": "The score is a number in [0,1]", "statement": "If scoring returns, the score, and the reported *S* and *H* indicators (when any clue was used) lie in [0,1], for exact arithmetic and for every monotone rounding such as IEEE double precision without overflow.", "quantifier": "every state with consistent counts, every message, every monotone rounding", "why_tests_cant": "Rounding error accumulates over up to 150 terms; the code comments on sums spilling above 1.", "anchors": ["sbclassifier/classifiers/basic.py::Classifier.spamprob", "sbclassifier/classifiers/basic.py::chi2Q"]}
{"id": "C15", "title": "Without significant clues the score is exactly one half", "statement": "If no word of the message is known, or no word is at distance at least 0.1 from one half, the score is exactly 0.5; in particular an untrained classifier scores everything 0.5.", "quantifier": "every state and message without significant clue", "why_tests_cant": "Quantifies over all states in which every word is insignificant.", "anchors": ["sbclassifier/classifiers/basic.py::Classifier.spamprob"]}
{"id": "C16", "title": "Swapping ham and spam mirrors the score", "statement": "In exact arithmetic and without bigrams, if two classifiers went through the same history of calls with opposite labels, then the scores of any message with at most 150 significant words add up to 1, and *S* and *H* are exchanged.", "quantifier": "every classifier state and its label-swapped twin, every message", "why_tests_cant": "A relational property over two executions.", "anchors": ["sbclassifier/classifiers/basic.py::Classifier.spamprob", "sbclassifier/classifiers/basic.py::Classifier.probability"]}
{"id": "C17", "title": "The score is monotone in the clues", "statement": "In exact arithmetic, raising the spam probability of one or more of the clues (same number of clues) never lowers the score.", "quantifier": "all clue lists of equal length, compared pointwise", "why_tests_cant": "Relates infinitely many pairs of inputs; depends on monotonicity of the chi-squared tail.", "anchors": ["sbclassifier/classifiers/basic.py::Classifier.spamprob", "sbclassifier/classifiers/basic.py::chi2Q"]}
{"id": "C18", "title": "chi2Q is the chi-squared tail for even degrees of freedom", "statement": "For even positive v and x2 >= 0 the result is exp(-x2/2) * sum_{i<v/2} (x2/2)^i/i!, lies in (0,1], is 1 at x2=0, is non-increasing in x2 and non-decreasing in v; odd v raises ValueError.", "quantifier": "all even v, all non-negative x2, all odd v", "why_tests_cant": "Infinite domain and analytic facts.", "anchors": ["sbclassifier/classifiers/basic.py::chi2Q"]}
{"id": "C19", "title": "The underflow guard does not change the result", "statement": "In exact arithmetic, the scaled product with its separate exponent represents the plain product of the clue probabilities, so the logarithms handed to chi2Q are the sums of the logarithms of the clue probabilities.", "quantifier": "every list of clue probabilities in (0,1) of every length", "why_tests_cant": "The rescaling is only entered after dozens of extreme clues.", "anchors": ["sbclassifier/classifiers/basic.py::Classifier.spamprob"]}
{"id": "C20", "title": "The evidence list is complete and ordered", "statement": "With evidence requested, the returned list is *H*, then *S*, then exactly the clues used, each once with its probability, in non-decreasing order of probability; the score is the same as without evidence.", "quantifier": "every state and message, every arithmetic with a total order", "why_tests_cant": "Quantifies over all messages and states.", "anchors": ["sbclassifier/classifiers/basic.py::Classifier.spamprob"]}
{"id": "C21", "title": "Bigram training documents a b c but learns a, a b, b, b c", "statement": "The documentation promises that with bigrams the words a b c are learned as a, b, 'a b', c, 'b c'. In the code the last word of every list is never learned (a one-word message learns nothing), and every word other than the last and every adjacent pair is; if the message is a one-shot iterator, such as the tokenizer returns, only one word in three and pairs of some other words are learned.", "quantifier": "every list of words; every iterator", "why_tests_cant": "The exact token set for every length and both kinds of iterables.", "anchors": ["sbclassifier/classifiers/basic.py::Classifier._enhance_wordstream", "sbclassifier/classifiers/basic.py::Classifier.learn"]}
{"id": "C22", "title": "Scoring mixed or bigrammed byte tokens can raise TypeError", "statement": "Scoring raises TypeError exactly when two significant clues tie in probability and one is text while the other is bytes. Consequently, as the tokenizer yields byte tokens only, bigrams cannot be used with it: a fresh bigram classifier that learned one list of two or more byte tokens (or a generator of seven or more) raises TypeError when scoring that same message.", "quantifier": "every state and message; witness for bigrams with byte tokens", "why_tests_cant": "Depends on exact ties.", "anchors": ["sbclassifier/classifiers/basic.py::Classifier._getclues", "sbclassifier/classifiers/basic.py::BIGRAM_FORMAT"]}
{"id": "C23", "title": "The database-backed classifier behaves like the in-memory classifier", "statement": "For every history of learn, unlearn, score, store and re-open-after-store on the shelve-backed classifier with text words other than the reserved key, every call returns the same value or raises the same exception as the same history (without store/re-open) on the in-memory classifier, and the known records and totals agree at every point.", "quantifier": "every finite history, every word set not containing 'saved state'", "why_tests_cant": "The backing store has write-through singletons, a change set and a delete set; their interplay needs every interleaving.", "anchors": ["sbclassifier/classifiers/storage.py::ShelveClassifier", "sbclassifier/classifiers/basic.py::Classifier"]}
{"id": "C24", "title": "Nothing is lost by store and re-open", "statement": "With text words other than the reserved key: after store(), re-opening the same database gives a classifier with the same totals and the same record for every word as before the store, whatever happened before; store() itself never raises and may be repeated without further effect.", "quantifier": "every reachable state of the shelve-backed classifier", "why_tests_cant": "Every history before the store.", "anchors": ["sbclassifier/classifiers/storage.py::ShelveClassifier.store", "sbclassifier/classifiers/storage.py::ShelveClassifier.load"]}
{"id": "C25", "title": "Listing the words of a stored database", "statement": "With text words other than the reserved key: after store(), the word listing of the shelve-backed classifier is exactly the set of words with a record. Before a store it can list words that were completely unlearned, and on a database that was never trained it raises ValueError.", "quantifier": "every reachable state; witnesses for the two failures", "why_tests_cant": "Depends on deletion bookkeeping over histories.", "anchors": ["sbclassifier/classifiers/storage.py::ShelveClassifier._wordinfokeys"]}
{"id": "C26", "title": "A crash between calls leaves a usable database when nothing was unlearned", "statement": "With text words other than the reserved key: if only learn, score and store calls were made since the database was created, then at every crash point (after any prefix of the individual database writes, including in the middle of learn or store) re-opening yields a classifier whose counts never exceed its totals (counting an empty total as one), so scoring never raises. The documentation claims consistency after every training call; with unlearn this is false: learn three times, store, unlearn once, crash, re-open, score raises. Nor does it survive further training after a crash inside a learn call: if the interrupted first message is learned again after re-opening, its words have a count of two in a total of one, and scoring raises.", "quantifier": "every history of learn/score/store, every prefix of the write log; witness for unlearn", "why_tests_cant": "Crash points multiply with histories.", "anchors": ["sbclassifier/classifiers/storage.py::ShelveClassifier._post_training", "sbclassifier/classifiers/storage.py::ShelveClassifier.store", "sbclassifier/classifiers/storage.py::ShelveClassifier._wordinfoset"]}
{"id": "C27", "title": "The reserved key and non-text words break the database-backed classifier", "statement": "Once a database has been trained, learning a message containing the word 'saved state' raises ValueError; learning a message whose words are bytes (which is what the tokenizer produces) raises AttributeError for every non-empty message and nevertheless counts the message in the total; if all its words are texts with a surrogate code point, the same holds with UnicodeEncodeError. A database whose record at the reserved key is not a state of this version is refused with ValueError when opened, and left as it is.", "quantifier": "every trained database; every non-empty byte-token message on every state without byte words", "why_tests_cant": "Universally quantified over states and messages.", "anchors": ["sbclassifier/classifiers/storage.py::STATE_KEY", "sbclassifier/classifiers/storage.py::ShelveClassifier._wordinfoget"]}
{"id": "C28", "title": "Pickle store and load round-trip", "statement": "If writing and reading succeed, storing a pickle-backed classifier and loading it into any other instance of that class gives exactly the stored records and totals and an empty probability cache, so both score every message identically.", "quantifier": "every classifier state, every prior state of the loading instance", "why_tests_cant": "All states.", "anchors": ["sbclassifier/classifiers/storage.py::PickleClassifier.load", "sbclassifier/classifiers/storage.py::PickleClassifier.store", "sbclassifier/classifiers/basic.py::Classifier.__setstate__"]}
{"id": "C29", "title": "A read failure silently becomes an empty classifier", "statement": "Whatever the reason loading fails (missing file, corrupt file, lock timeout, unknown version), a pickle-backed classifier starts empty without an error, and a later store replaces the previously trained database; hence load followed by store does not preserve an existing database when the read fails transiently.", "quantifier": "every database content, every failure reason", "why_tests_cant": "Fault injection at every read.", "anchors": ["sbclassifier/classifiers/storage.py::PickleClassifier.load", "sbclassifier/safepickle.py::pickle_read"]}
{"id": "C30", "title": "Pickle writing is atomic on one file system only", "statement": "If the temporary directory is on the same file system as the database, then at every crash point of a write the database file holds either the complete old or the complete new contents. Otherwise there is a crash point at which it holds neither. A completed write leaves no temporary file; a crash while the contents are being written leaves one with the part written so far.", "quantifier": "every old and new contents, every crash point", "why_tests_cant": "Crash points cannot be enumerated by unit tests.", "anchors": ["sbclassifier/safepickle.py::pickle_write"]}
{"id": "C31", "title": "Readers and writers of the pickle never see a partial file, but updates can be lost", "statement": "Under every interleaving of any number of processes reading and writing through the lock, with processes dying at any point, at most one process is inside the critical section and every completed read returned the complete contents of the initial file or of one completed write. Two processes that each load, train and store can nevertheless lose one of the two updates, and a process that dies inside the critical section makes every later acquisition time out.", "quantifier": "every schedule of any number of processes, every crash", "why_tests_cant": "Schedules.", "anchors": ["sbclassifier/safepickle.py::pickle_read", "sbclassifier/safepickle.py::pickle_write"]}
{"id": "C32", "title": "The cdb-backed classifier cannot persist, and its format would swap ham and spam", "statement": "store() raises NameError for every state, loading an existing file raises NameError, loading a missing file gives an empty classifier; and with a working cdb module the load of a stored database would exchange the ham and spam count of every word while keeping the totals.", "quantifier": "every classifier state", "why_tests_cant": "All states; and the swap is invisible for symmetric counts.", "anchors": ["sbclassifier/classifiers/storage.py::CDBClassifier"]}
{"id": "C33", "title": "A plain classifier does not survive pickling", "statement": "Unpickling a pickled classifier restores records and totals, but the restored object raises AttributeError on every learn, unlearn and score call because its bigram option was not restored; a version mismatch raises ValueError.", "quantifier": "every classifier state, every message", "why_tests_cant": "All states and messages.", "anchors": ["sbclassifier/classifiers/basic.py::Classifier.__getstate__", "sbclassifier/classifiers/basic.py::Classifier.__setstate__"]}
{"id": "C34", "title": "Iterating a written cdb returns what was written", "statement": "For every list of ASCII key/value pairs whose file fits in 4 GiB, writing it and listing the items gives back exactly the pairs, in order, duplicates included. For non-ASCII keys this fails.", "quantifier": "every list of ASCII pairs; witness for non-ASCII", "why_tests_cant": "Round trip for every list.", "anchors": ["sbclassifier/cdb.py::cdb_make", "sbclassifier/cdb.py::Cdb.__iter__", "sbclassifier/cdb.py::Cdb.items"]}
{"id": "C35", "title": "cdb_make writes a correct constant database", "statement": "For every list of ASCII pairs within the 4 GiB limit, table construction terminates and a reader following Bernstein's specification on bytes finds, for every key, the value of the first pair with that key, and finds nothing for an absent key.", "quantifier": "every list of pairs, every key present or absent", "why_tests_cant": "Linear probing with collisions and wrap-around over all key sets.", "anchors": ["sbclassifier/cdb.py::cdb_make", "sbclassifier/cdb.py::cdb_hash", "sbclassifier/cdb.py::Cdb.findnext"]}
{"id": "C36", "title": "cdb lookup by key never succeeds", "statement": "Looking up any key other than the empty byte string through the reader class never returns a value: text keys end in KeyError (or a struct error on a malformed file), byte keys in TypeError; get returns its default for every text key of a well-formed file, and on any file only where the lookup ends in KeyError.", "quantifier": "every file, every key", "why_tests_cant": "Universally quantified negative.", "anchors": ["sbclassifier/cdb.py::Cdb.findnext", "sbclassifier/cdb.py::Cdb.match", "sbclassifier/cdb.py::Cdb.get", "sbclassifier/cdb.py::Cdb.__getitem__"]}
{"id": "C37", "title": "The in-memory cache respects its size limit", "statement": "After any sequence of put, pop and get calls the number of cached entries never exceeds the limit, and every cached value is the one most recently put under its key.", "quantifier": "every sequence of operations, every limit", "why_tests_cant": "Unbounded histories.", "anchors": ["sbclassifier/corpora/caches.py::NaiveCache.put", "sbclassifier/corpora/caches.py::NaiveCache.pop"]}
{"id": "C38", "title": "The cache is first-in first-out as long as no cached key is put again", "statement": "If no key is put while it is cached, the cache holds exactly the most recent entries up to the limit that were not popped. Putting a cached key again breaks the documented key-list invariant and, at the limit, evicts entries early; at the limit, putting the oldest key again makes the value just put disappear.", "quantifier": "every history without re-puts; witnesses for re-puts", "why_tests_cant": "Unbounded histories, and the failure needs a re-put at the limit.", "anchors": ["sbclassifier/corpora/caches.py::NaiveCache.put"]}
{"id": "C39", "title": "An empty cache handed to a corpus is ignored", "statement": "A corpus constructed with a cache that is empty at that moment uses a private unlimited in-memory cache instead: the size limit is ignored and, for a directory-backed corpus opened on a directory with no matching message, no message is ever written to disk.", "quantifier": "every empty cache, every later history of the corpus", "why_tests_cant": "Every history.", "anchors": ["sbclassifier/corpora/base.py::Corpus.__init__", "sbclassifier/corpora/filesystem.py::FileCorpus.__init__", "sbclassifier/corpora/caches.py::FileCache.__len__"]}
{"id": "C40", "title": "Evicting from the directory-backed cache deletes message files", "statement": "For a directory-backed cache, put stores the message in the directory and pop removes it; but exceeding the memory limit deletes the evicted message's file, so after any history starting with an empty memory the files put through the cache and still present number at most the limit. Files that were neither put nor popped through the cache are kept.", "quantifier": "every history of put/pop/get, every limit of at least 1 (with limit 0 the file just put stays)", "why_tests_cant": "Unbounded histories.", "anchors": ["sbclassifier/corpora/caches.py::FileCache.put", "sbclassifier/corpora/caches.py::FileCache.pop", "sbclassifier/corpora/caches.py::NaiveCache.put"]}
{"id": "C41", "title": "Memory and disk of the directory-backed cache agree", "statement": "After any history of put and pop through the cache, every message in memory is also on disk with the same contents, lookup returns the most recently put contents, and a put whose key does not match the filter raises ValueError and changes nothing.", "quantifier": "every history, every key", "why_tests_cant": "Unbounded histories.", "anchors": ["sbclassifier/corpora/caches.py::FileCache.__getitem__", "sbclassifier/corpora/caches.py::FileCache.put", "sbclassifier/corpora/caches.py::FileCache.get", "sbclassifier/corpora/caches.py::FileCache.keys"]}
{"id": "C42", "title": "The length of a directory-backed cache is frozen at construction", "statement": "len() of a directory-backed cache always equals the number of matching files at construction time, after any history; iterating it, in contrast, lists the current files. Hence len and iteration disagree after the first put of a new key.", "quantifier": "every history", "why_tests_cant": "Unbounded histories.", "anchors": ["sbclassifier/corpora/caches.py::FileCache.__len__", "sbclassifier/corpora/caches.py::FileCache.__init__", "sbclassifier/corpora/caches.py::FileCache.__iter__"]}
{"id": "C43", "title": "Corpus add/remove bookkeeping and signals", "statement": "Adding a message makes it retrievable under its id and emits exactly one added-signal (none if suppressed); removing it makes the id absent and emits exactly one removed-signal even if the message was not in the corpus; other ids are unaffected (no size limit).", "quantifier": "every corpus state, every message, every history", "why_tests_cant": "Frame conditions and histories.", "anchors": ["sbclassifier/corpora/base.py::Corpus.add_message", "sbclassifier/corpora/base.py::Corpus.remove_message"]}
{"id": "C44", "title": "Removing a message from an observed corpus trains it again", "statement": "The documentation promises that removing a message from an observed corpus untrains it. In the code every add and every remove trains: after any history of adds and removes the classifier's total for the trainer's label equals the number of both, and nothing is ever untrained; for the package's own message class every add or remove raises AttributeError and trains nothing.", "quantifier": "every history of add/remove on observed corpora, every message", "why_tests_cant": "Histories; and the documented inverse property is a two-step relation.", "anchors": ["sbclassifier/trainers.py::Trainer.__init__", "sbclassifier/trainers.py::Trainer.train", "sbclassifier/trainers.py::Trainer.untrain"]}
{"id": "C45", "title": "Expiry never removes a message", "statement": "remove_expired_messages never removes anything: it returns early, or raises AttributeError on the first message without creation timestamp, or raises TypeError at the first expired message, or completes having found no expired message and sets the next due time no later than the earliest expiry.", "quantifier": "every corpus content and clock behaviour", "why_tests_cant": "Every content and every clock reading.", "anchors": ["sbclassifier/corpora/filesystem.py::ExpiryFileCorpus.remove_expired_messages"]}
{"id": "C46", "title": "A message id can be set only once", "statement": "After any sequence of set_id and set_id_from_payload calls, once a non-empty id is accepted it never changes; an id is accepted only if it is a string other than the two reserved names, and a rejected call leaves the message unchanged. A message can be made without an id or with such a string as its id, and with nothing else. Taking the id from the header raises (TypeError) exactly if the header contains raw bytes and the id is unset or equal to it.", "quantifier": "every sequence of calls and arguments", "why_tests_cant": "Unbounded call sequences.", "anchors": ["sbclassifier/message.py::Message.set_id", "sbclassifier/message.py::Message.set_id_from_payload"]}
{"id": "C47", "title": "Classification thresholds", "statement": "Setting the classification from a float yields ham below 0.2, spam above 0.9 and unsure otherwise, is monotone in the score, and agrees with the separate unsure test used by the URL-slurping classifier at every score except exactly the two cutoffs, where they disagree; non-float, non-enum arguments raise ValueError and change nothing.", "quantifier": "every float and every other argument", "why_tests_cant": "Boundary behaviour over a continuum.", "anchors": ["sbclassifier/message.py::Message.set_classification", "sbclassifier/classifiers/slurping.py::is_unsure"]}
{"id": "C48", "title": "Removing the filter's headers removes all of them and nothing else", "statement": "After remove_sb_headers none of the seven filter headers is present in any letter case or multiplicity, and all other headers keep their value, multiplicity and order, except for one classification notation at the start of the first Subject and To header.", "quantifier": "every header list", "why_tests_cant": "All header lists.", "anchors": ["sbclassifier/message.py::Message.remove_sb_headers", "sbclassifier/message.py::Message.remove_notations"]}
{"id": "C49", "title": "Adding then removing the filter's headers restores the message", "statement": "If a message has none of the filter headers and has a Subject and a To header without undecoded 8-bit bytes, then add_sb_headers with any score and options followed by remove_sb_headers restores the header list exactly, provided that notations were added or the original Subject/To do not themselves start with a notation. Without a Subject (or To) header the notation is left behind for ever.", "quantifier": "every header list, score and option combination; witness for missing headers", "why_tests_cant": "All header lists and option combinations.", "anchors": ["sbclassifier/message.py::Message.add_sb_headers", "sbclassifier/message.py::Message.add_notations", "sbclassifier/message.py::Message.remove_sb_headers"]}
{"id": "C50", "title": "The two notation options of remove_sb_headers are exchanged", "statement": "remove_sb_headers(remove_to_notations=a, remove_subject_notations=b) removes the To notation exactly when b and the Subject notation exactly when a.", "quantifier": "every message, both booleans", "why_tests_cant": "The default arguments hide it; every message.", "anchors": ["sbclassifier/message.py::Message.remove_sb_headers", "sbclassifier/message.py::Message.remove_notations"]}
{"id": "C51", "title": "Classifying twice keeps reporting the first classification", "statement": "Each add_sb_headers call appends a classification header; after any number of calls the value read back from the message is the one added first, and as many headers as calls are present.", "quantifier": "every sequence of classifications", "why_tests_cant": "Sequences.", "anchors": ["sbclassifier/message.py::Message.add_sb_headers", "sbclassifier/message.py::Message.current_sb_headers"]}
{"id": "C52", "title": "Line endings are normalised", "statement": "force_crlf is idempotent, its result contains carriage returns and line feeds only as CR LF pairs, and it preserves the sequence of lines (splitting at CR LF, CR or LF).", "quantifier": "every string", "why_tests_cant": "Every string.", "anchors": ["sbclassifier/message.py::force_crlf"]}
{"id": "C53", "title": "The evidence header loses no clue but can exceed the line limit", "statement": "The wrapped evidence header, split at its separators, gives back the formatted clues in order, and continuation lines start with a tab. The intended 78-column limit counts the clues but not the separators between them and so is not respected: every evidence list of six or more clues of ten characters each gives a first line longer than 78 columns.", "quantifier": "every list of formatted clues; unbounded family of witnesses", "why_tests_cant": "Every list; a test on short evidence never meets the limit.", "anchors": ["sbclassifier/message.py::Message.add_sb_headers"]}
{"id": "C54", "title": "The exception header goes into the header section and preserves the message", "statement": "For a message text with a blank line, the result of insert_exception_header is the original header section, the new header fields, a blank line and the original body unchanged; the exception field has the text of the exception with every line break as carriage return and newline. For a text without blank line that ends in a newline, the exception field lands after a blank line, in the body.", "quantifier": "every message text, every exception text; witness", "why_tests_cant": "Every text.", "anchors": ["sbclassifier/message.py::insert_exception_header"]}
{"id": "C55", "title": "The level header is proportional to the score", "statement": "The level header consists of between 0 and 10 stars for scores in [0,1], 10 stars exactly for score 1, and more stars never mean a lower score.", "quantifier": "every score in [0,1]", "why_tests_cant": "Continuum.", "anchors": ["sbclassifier/message.py::Message.add_sb_headers"]}
{"id": "C56", "title": "Strippers keep everything outside the stripped regions", "statement": "For every text, each stripper removes exactly the regions from the leftmost start match to the next end match, one after the other, and keeps everything else unchanged and in order; a text without start match is returned unchanged, an unterminated start keeps the rest of the text; what is kept is determined by the text; processing terminates. What is kept may itself contain a section again.", "quantifier": "every text, every stripper", "why_tests_cant": "Every text.", "anchors": ["sbclassifier/strippers.py::Stripper.analyze", "sbclassifier/strippers.py::CommentStripper", "sbclassifier/strippers.py::StyleStripper", "sbclassifier/strippers.py::NoframesStripper", "sbclassifier/strippers.py::URLStripper"]}
{"id": "C57", "title": "URL tokens keep trailing punctuation", "statement": "The URL tokenizer yields one proto token and one url token for every chunk of the URL, and joining the chunks with the separators found between them gives the URL text back; the documented removal of trailing punctuation does not happen.", "quantifier": "every URL text; witness", "why_tests_cant": "Every text.", "anchors": ["sbclassifier/strippers.py::URLStripper.tokenize"]}
{"id": "C58", "title": "Tokenizing a word: exact outcome for every word", "statement": "A body word of 3 to 12 bytes is its own token; a shorter one yields nothing in tokenize_text; a longer one raises TypeError exactly when it has fewer than 40 bytes and contains a dot, or contains a byte >= 128, and otherwise yields one skip token with first character and length rounded down to tens. A subject word (text) longer than 12 characters always raises TypeError.", "quantifier": "every word", "why_tests_cant": "Every word.", "anchors": ["sbclassifier/tokenizer.py::tokenize_word", "sbclassifier/tokenizer.py::Tokenizer.tokenize_text"]}
{"id": "C59", "title": "A line such as 'begin 644 name' makes tokenizing raise", "statement": "Whenever the text of a message contains a uuencode begin line (at a line start 'begin', a word and a word separated by white space, which may itself contain line ends, and nothing else up to a line end), stripping uuencoded sections raises TypeError; a text without such a line passes unchanged.", "quantifier": "every text", "why_tests_cant": "Every text.", "anchors": ["sbclassifier/strippers.py::UUencodeStripper", "sbclassifier/strippers.py::crack_filename", "sbclassifier/tokenizer.py::Tokenizer.tokenize_body"]}
{"id": "C60", "title": "Host names and addresses break down into their suffixes and prefixes", "statement": "breakdown_host yields exactly the non-empty label suffixes of the host name from the shortest to the full name; breakdown_ipaddr yields the prefixes of the dotted address ending with the full address.", "quantifier": "every host name, every dotted quad", "why_tests_cant": "Every input.", "anchors": ["sbclassifier/tokenizer.py::breakdown_host", "sbclassifier/tokenizer.py::breakdown_ipaddr"]}
{"id": "C61", "title": "Subnet clues contain the address and are nested", "statement": "For every IPv4 address the four subnets contain the address, have prefix lengths 8, 16, 24, 32, are nested, and two addresses get the same /n subnet exactly when they agree in the first n bits; the prefix_lengths argument has no effect. For a text that is no dotted quad the clues are those of the networks ip_network returns, up to the first prefix length for which it raises; that exception is raised then.", "quantifier": "every address, every prefix_lengths argument", "why_tests_cant": "2^32 addresses times arguments.", "anchors": ["sbclassifier/iputils.py::subnets", "sbclassifier/iputils.py::gen_dotted_quad_clues"]}
{"id": "C62", "title": "The global socket timeout is restored", "statement": "A timed DNS call leaves the process-wide default timeout as it found it, whether the wrapped call returns, times out or raises; a timeout yields an empty result and other exceptions propagate. With two concurrent calls this fails for some interleaving.", "quantifier": "every outcome of the wrapped function, every initial timeout; every interleaving of two calls", "why_tests_cant": "Fault outcomes and schedules.", "anchors": ["sbclassifier/dnsutils.py::timed"]}
{"id": "C63", "title": "Memoisation returns what the function would return", "statement": "A memoised function returns the first result computed for the arguments, calls the function at most once per argument as long as it does not raise, and never caches an exception.", "quantifier": "every sequence of calls, every (possibly effectful or raising) function", "why_tests_cant": "Every call sequence.", "anchors": ["sbclassifier/dnsutils.py::memoize"]}
{"id": "C64", "title": "The URL-slurping classifier is unusable and harmless", "statement": "Every call of learn, unlearn or spamprob on a URL-slurping classifier raises, however often it is repeated, and leaves records and totals unchanged. The exception is TypeError unless the cache directory cannot be created (its error) or plain scoring of the same words already raises (that error); learning and unlearning create the cache directory.", "quantifier": "every state, every sequence of calls, every outcome of creating the directory", "why_tests_cant": "Universally quantified.", "anchors": ["sbclassifier/classifiers/slurping.py::SlurpingClassifier"]}
{"id": "C65", "title": "A message read back from the directory cannot be removed", "statement": "A message object obtained by looking a key up in a directory-backed corpus, when the message is not in memory, has no id; removing it from the corpus raises TypeError, sends no signal, and its file stays.", "quantifier": "every directory-backed corpus state, every key on disk but not in memory, every set of observers", "why_tests_cant": "Every corpus state; holds for every message after the corpus is reopened.", "anchors": ["sbclassifier/corpora/caches.py::FileCache.__getitem__", "sbclassifier/corpora/caches.py::FileCache.pop", "sbclassifier/corpora/base.py::Corpus.remove_message"]}
{"id": "C66", "title": "Undecoded 8-bit bytes in Subject or To make header removal fail", "statement": "remove_sb_headers raises AttributeError exactly when notations are to be removed from the Subject (or To) header and the first such header contains undecoded 8-bit bytes; it never raises anything else. By then the filter headers have been removed.", "quantifier": "every header list, both options", "why_tests_cant": "Every header list; ordinary test messages are ASCII.", "anchors": ["sbclassifier/message.py::Message.remove_sb_headers", "sbclassifier/message.py::Message.remove_notations"]}
{"id": "C67", "title": "Saved filter headers can be restored", "statement": "The values returned by current_sb_headers, assigned to the message again after remove_sb_headers, make current_sb_headers return the same values as before; in between it returns nothing. This holds for every header list whose filter headers are plain text.", "quantifier": "every header list in every letter case, order and multiplicity, both options", "why_tests_cant": "Every header list.", "anchors": ["sbclassifier/message.py::Message.current_sb_headers", "sbclassifier/message.py::Message.remove_sb_headers"]}
{"id": "C68", "title": "NNTP host mining raises for nearly every message", "statement": "Iterating over mine_nntp yields tokens only when the first NNTP-Posting-Host header is no IP address and looking it up times out or finds no address; the tokens are then the host name and its last two labels. It raises TypeError when there is no such header, when the header is an IP address, and when the name resolves; any other resolver error propagates. The default socket timeout is always restored.", "quantifier": "every list of header values, every resolver behaviour", "why_tests_cant": "Every resolver outcome; tests have no network.", "anchors": ["sbclassifier/tokenizer.py::mine_nntp", "sbclassifier/tokenizer.py::clues_from_ipaddress", "sbclassifier/tokenizer.py::clues_from_domainname", "sbclassifier/dnsutils.py::dns_lookup"]}
{"id": "C69", "title": "The base of a URL", "statement": "base_url keeps of the host (everything before the first slash) a suffix of whole labels: the whole host when it has at most two labels, otherwise the last three labels when the top-level label has fewer than three characters and the last two otherwise. The path has no influence, and taking the base of a base changes nothing.", "quantifier": "every URL text", "why_tests_cant": "Every text.", "anchors": ["sbclassifier/classifiers/slurping.py::base_url"]}
{"id": "C70", "title": "Tokenizing a text part: exactly which texts raise, and the tokens of the others", "statement": "For every decoded text part, tokenizing either yields exactly the virus clues, the tokens of the URLs and the tokens of the words of the lower-cased text with URLs, style sections, comments and noframes sections removed, or raises TypeError; it raises exactly when the text contains a numeric character entity or a uuencode begin line, or when what is left after stripping contains an HTML tag, a &nbsp; or a word that raises. The case of letters does not matter. A text without the characters < & = : and without a begin line and bad words yields exactly its words.", "quantifier": "every byte string", "why_tests_cant": "Infinitely many texts; the interaction of seven regular expressions.", "anchors": ["sbclassifier/tokenizer.py::Tokenizer.tokenize_body", "sbclassifier/tokenizer.py::find_html_virus_clues", "sbclassifier/tokenizer.py::html_re", "sbclassifier/tokenizer.py::numeric_entity_re", "sbclassifier/tokenizer.py::breaking_entity_re"]}
{"id": "C71", "title": "A part that cannot be decoded makes tokenizing raise; what the base64 repair returns", "statement": "The base64 repair splits off the leading lines that look like base64, up to and including the first line with an equal sign; if there are none it returns the text, if they decode it raises TypeError, and otherwise it returns the rest. A text part that has a payload which cannot be decoded always yields the couldn't-decode token and then raises TypeError.", "quantifier": "every text, every base64 decoder", "why_tests_cant": "Every text and every line structure.", "anchors": ["sbclassifier/tokenizer.py::try_to_repair_damaged_base64", "sbclassifier/tokenizer.py::Tokenizer.tokenize_body"]}
{"id": "C72", "title": "The order of the text parts does not matter", "statement": "Tokenizing a body raises (TypeError) exactly when one of the text parts does, in whatever order the set of parts is enumerated, and otherwise yields the same tokens up to order: those of each part.", "quantifier": "every list of parts and every enumeration order", "why_tests_cant": "Enumeration orders of a set of objects vary between runs.", "anchors": ["sbclassifier/tokenizer.py::Tokenizer.tokenize_body", "sbclassifier/tokenizer.py::textparts"]}
{"id": "C73", "title": "Training on a message that cannot be tokenized changes the message total", "statement": "If the token stream given to learn or unlearn raises, the exception reaches the caller and no word record changes, but the message total has been incremented (or decremented; unlearning from a zero total raises ValueError before); every further attempt changes it again. A stream that ends normally behaves like the list of its tokens. In particular learning a message with an HTML part counts a message without words.", "quantifier": "every classifier, storage, stream and number of attempts", "why_tests_cant": "Every state, every stream.", "anchors": ["sbclassifier/classifiers/basic.py::Classifier._add_msg", "sbclassifier/classifiers/basic.py::Classifier._remove_msg", "sbclassifier/classifiers/basic.py::Classifier.learn", "sbclassifier/classifiers/basic.py::Classifier.unlearn", "sbclassifier/tokenizer.py::Tokenizer.tokenize_body"]}
{"id": "C74", "title": "The tokens of the headers of a MIME part", "statement": "For every part the content type, the type parameter, each charset and the disposition give one token each (lower-cased), and a file name gives exactly two: the whole name and a token calling it bogus, also when the name is an ordinary one. A part with an RFC 2231 encoded type parameter or an 8-bit disposition raises AttributeError.", "quantifier": "every part, whatever the email package returns for it", "why_tests_cant": "Every combination of parameters; the type error only shows for encoded parameters.", "anchors": ["sbclassifier/strippers.py::crack_content_xyz", "sbclassifier/strippers.py::crack_filename"]}
{"id": "C75", "title": "Which subjects are tokenized, and into what", "statement": "Tokenizing a subject raises TypeError exactly when one of its decoded pieces is bytes or contains a word of more than 12 characters; otherwise its tokens are exactly the charset, the words of at least three characters and the maximal runs of other than word characters, of each piece. An ordinary long word such as Congratulations is enough to make it raise. Errors of the header decoder that are not caught reach the caller.", "quantifier": "every subject, every header decoder, every Unicode table", "why_tests_cant": "Every text; long words are rare in test data.", "anchors": ["sbclassifier/tokenizer.py::Tokenizer.tokenize_headers", "sbclassifier/tokenizer.py::tokenize_word", "sbclassifier/tokenizer.py::subject_word_re", "sbclassifier/tokenizer.py::punctuation_run_re"]}
{"id": "C76", "title": "The tokens of address headers", "statement": "For each of the address headers: if there is none, one token says so; otherwise each address gives a token for each piece of its decoded real name (and charset) and for each part of the lower-cased address around the at signs, or one token for an empty address; then, if there are addresses without real name, one token with the integer nearest to the binary logarithm of their number. Failures of the address parser reach the caller.", "quantifier": "every message, every address parser and header decoder", "why_tests_cant": "Every list of addresses.", "anchors": ["sbclassifier/tokenizer.py::Tokenizer.tokenize_headers"]}
{"id": "C77", "title": "Header counts", "statement": "The header-count tokens are exactly one per spelling of a counted header name (the safe names by default, compared ignoring case; all names on request), with the number of headers spelled exactly so. No token occurs twice and the order of the headers does not matter. Asking to record absent headers does not record any absent one: it yields tokens for unsafe headers that are present.", "quantifier": "every list of headers and options", "why_tests_cant": "Every multiset of headers and every spelling.", "anchors": ["sbclassifier/tokenizer.py::Tokenizer.tokenize_headers", "sbclassifier/tokenizer.py::SAFE_HEADERS"]}
{"id": "C78", "title": "The message id token", "statement": "A message id of the form blanks, <, something without @, @, host, > (anything may follow) gives exactly one token with the host, which is determined by the text; any other text, also an absent header, gives exactly the invalid token; an 8-bit message id raises TypeError.", "quantifier": "every message id text, every Unicode table agreeing with ASCII", "why_tests_cant": "Every text; uniqueness of the host for ambiguous texts.", "anchors": ["sbclassifier/tokenizer.py::message_id_re", "sbclassifier/tokenizer.py::Tokenizer.tokenize_headers"]}
{"id": "C79", "title": "Recipient counts and the mailer token", "statement": "For To and Cc headers the recipient token holds the integer nearest to the binary logarithm of the number of headers plus commas, which is unique, and no token is yielded without such headers. The mailer token is the lower-cased header with runs of white space made single blanks, or none. 8-bit values raise AttributeError.", "quantifier": "every message", "why_tests_cant": "Every number of recipients: rounding of logarithms at every boundary.", "anchors": ["sbclassifier/tokenizer.py::log2", "sbclassifier/tokenizer.py::Tokenizer.tokenize_headers"]}
{"id": "C80", "title": "Summaries of recipient addresses", "statement": "The prefix (suffix) summary is yielded exactly when there are two or more addresses with a non-empty longest common prefix (suffix); it holds a tenth of the product of its length and the number of addresses rounded down, or big above the limit. It does not depend on the order of the addresses. Failures of the address parser reach the caller.", "quantifier": "every list of addresses", "why_tests_cant": "Every list of texts and its permutations.", "anchors": ["sbclassifier/tokenizer.py::Tokenizer.tokenize_headers"]}
{"id": "C81", "title": "Mining Received headers", "statement": "Each Received header gives exactly the complaints in brackets, the dot suffixes of the leftmost from-host, shortest first, and four dot prefixes of the leftmost bracketed number group, of the white-space-normalized lower-cased text; the list is determined by the text. The numbers need not be a dotted quad: (1234) counts. 8-bit values raise AttributeError.", "quantifier": "every header text, every Unicode table agreeing with ASCII", "why_tests_cant": "Every text; greedy and lazy matching of three regular expressions.", "anchors": ["sbclassifier/tokenizer.py::received_complaints_re", "sbclassifier/tokenizer.py::received_host_re", "sbclassifier/tokenizer.py::received_ip_re", "sbclassifier/tokenizer.py::breakdown_host", "sbclassifier/tokenizer.py::breakdown_ipaddr", "sbclassifier/tokenizer.py::Tokenizer.tokenize_headers"]}
{"id": "C82", "title": "Tokenizing a whole message", "statement": "Whatever the message, a tokenizer yields only byte strings. The call ends normally exactly for the messages whose subject, addresses, parts, other headers and text parts can each be tokenized and encoded, and then yields exactly their tokens (those of C70 - C72 and C74 - C81) in UTF-8, determined up to order; the order of the text parts does not matter. If the headers raise, the outcome does not depend on the body. A subject containing a word of more than 12 characters makes the call raise, and learning such a message changes the message total and no word record.", "quantifier": "every message, option setting, decoder and Unicode table; every classifier and storage", "why_tests_cant": "Every message and every failure point.", "anchors": ["sbclassifier/tokenizer.py::Tokenizer.__call__", "sbclassifier/tokenizer.py::Tokenizer.tokenize_body", "sbclassifier/tokenizer.py::Tokenizer.tokenize_headers", "sbclassifier/classifiers/basic.py::Classifier.learn"]}
{"id": "C83", "title": "Basic header tokens", "statement": "tokenize_headers with basic_header_tokenize yields, for every header in order, a token name:word with the lower-cased name for each word of 3 to 12 characters of its value, a word of more than 12 characters or an 8-bit value making it raise; with basic_header_tokenize_only nothing else but the tokens of the parts is yielded. A header is skipped exactly when its name begins with the text received date x-, so no name without a blank is skipped: that Received, Date and X- headers are skipped is refuted. Calling the tokenizer with these arguments has no effect: that they are handed on is refuted.", "quantifier": "every message, argument, option setting and Unicode table agreeing with ASCII", "why_tests_cant": "Every header list; a regular expression nobody looked at.", "anchors": ["sbclassifier/tokenizer.py::BASIC_HEADER_SKIP", "sbclassifier/tokenizer.py::Tokenizer.__init__", "sbclassifier/tokenizer.py::Tokenizer.tokenize_headers", "sbclassifier/tokenizer.py::Tokenizer.__call__"]}
{"id": "C84", "title": "Habeas headers", "statement": "Searching for Habeas headers adds tokens to those yielded otherwise and never changes whether tokenizing raises. Unreduced: one token valid or invalid for each of the nine headers present, by its first occurrence, names compared without regard to case. Reduced: one token invalid if any of those present is wrong, else one token valid if all nine are present, else none.", "quantifier": "every message, both settings", "why_tests_cant": "Every combination of nine headers with right, wrong, repeated and missing values.", "anchors": ["sbclassifier/tokenizer.py::X_SEARCH_FOR_HABEAS_HEADERS", "sbclassifier/tokenizer.py::X_REDUCE_HABEAS_HEADERS", "sbclassifier/tokenizer.py::Tokenizer.tokenize_headers"]}
{"id": "C85", "title": "Octet streams and image sizes", "statement": "The two options add tokens to those of the text parts and never change whether tokenizing raises. Each octet stream gives a token with its first five bytes (fewer if it is shorter), or complaints. The images give complaints and, unless all are empty, one token with the integer nearest to the binary logarithm of their total length, so it does not matter how that is divided among the images.", "quantifier": "every list of parts, both options", "why_tests_cant": "Every list of payloads; rounding of logarithms at every boundary.", "anchors": ["sbclassifier/tokenizer.py::CHECK_OCTETS", "sbclassifier/tokenizer.py::OCTET_PREFIX_SIZE", "sbclassifier/tokenizer.py::IMAGE_SIZE", "sbclassifier/tokenizer.py::Tokenizer.tokenize_body"]}
{"id": "C86", "title": "Runs of short words", "statement": "With the option, a text part yields what it yields otherwise and then at most one token, whose number is the binary logarithm, rounded down (see C145 for floating point), of the length of the longest run of words of fewer than 3 characters that is followed by a longer word; without such a run there is no token. The same parts raise. That a text made of short words only gives a token is refuted: the run at the end is not counted.", "quantifier": "every text part", "why_tests_cant": "Every sequence of word lengths; the run that ends the text.", "anchors": ["sbclassifier/tokenizer.py::X_SHORT_RUNS", "sbclassifier/tokenizer.py::Tokenizer.tokenize_text"]}
{"id": "C87", "title": "Options that make text parts raise", "statement": "For any setting of the options a text part yields exactly the tokens described, or raises TypeError, and which of the two is decided by the text. With recognition of URLs without protocol, a text in which such a URL is met raises; with picking URLs apart, a text in which any URL is met raises; with replacing of non-ASCII characters, every decodable text part raises. That URL recognition leaves tokenizable texts tokenizable is refuted.", "quantifier": "every text and all settings of the options", "why_tests_cant": "Every text; bytes and text mixed on paths no test switches on.", "anchors": ["sbclassifier/strippers.py::FANCY_URL_RECOGNITION", "sbclassifier/strippers.py::X_PICK_APART_URLS", "sbclassifier/strippers.py::url_fancy_re", "sbclassifier/strippers.py::URLStripper.tokenize", "sbclassifier/tokenizer.py::REPLACE_NONASCII_CHARS", "sbclassifier/tokenizer.py::Tokenizer.tokenize_body"]}
{"id": "C88", "title": "Tokenizing a whole message with options", "statement": "For all settings of the options a call of the tokenizer ends normally exactly for the messages all of whose sections can be tokenized and encoded, and yields exactly their tokens, determined up to order. With the options as they are set in the modules this is the property of whole messages above.", "quantifier": "every message and all settings of the options (not image cracking, DNS lookup, news headers)", "why_tests_cant": "Every message under every combination of options.", "anchors": ["sbclassifier/tokenizer.py::Tokenizer.__call__", "sbclassifier/tokenizer.py::Tokenizer.tokenize_headers", "sbclassifier/tokenizer.py::Tokenizer.tokenize_body", "sbclassifier/strippers.py::URLStripper.tokenize"]}
{"id": "C89", "title": "Scoring in double precision never raises", "statement": "After training in which every unlearned message had been learned, with fewer than 2^48 messages currently learned, scoring in IEEE double precision returns a score for every sequence of words of one type: no rounding makes a probability 0 or 1, no product or exponent underflows to a logarithm of zero, and nothing overflows. The math library need only compute log and exp to within one unit in the last place.", "quantifier": "every history of learning, unlearning and scoring, every message", "why_tests_cant": "Underflow and rounding to 0 or 1 need particular combinations of up to 150 probabilities and counts.", "anchors": ["sbclassifier/classifiers/basic.py::Classifier.spamprob", "sbclassifier/classifiers/basic.py::Classifier.probability", "sbclassifier/classifiers/basic.py::chi2Q"]}
{"id": "C90", "title": "Accuracy of the probability of a word", "statement": "In double precision the probability of a word and every probability reported as evidence differs from the documented formula of the numbers of messages by at most a factor 1 +- 2e-15, is strictly between 0 and 1, and only words of learned messages are reported.", "quantifier": "all counts and totals below 2^48", "why_tests_cant": "Every pair of counts and totals; rounding of eight operations.", "anchors": ["sbclassifier/classifiers/basic.py::Classifier.probability", "sbclassifier/classifiers/basic.py::Classifier._getclues"]}
{"id": "C91", "title": "Accuracy of the score", "statement": "In double precision the score and the two indicators are between 0 and 1 and differ by at most 4e-12 from Fisher's combination, in real arithmetic, of the probabilities reported with them.", "quantifier": "every history of fewer than 2^48 calls, every message", "why_tests_cant": "Every list of up to 150 probabilities; rounding accumulates over rescaled products, logarithms and the series.", "anchors": ["sbclassifier/classifiers/basic.py::Classifier.spamprob", "sbclassifier/classifiers/basic.py::chi2Q", "sbclassifier/classifiers/basic.py::LN2"]}
{"id": "C92", "title": "Raising probabilities in double precision", "statement": "In double precision, if the evidence of one message has the same number of clues as that of another and each probability is at least the other's, its score is at least the other's up to 8e-12.", "quantifier": "every two messages and histories of fewer than 2^48 calls", "why_tests_cant": "Rounding can make a computed function decrease anywhere.", "anchors": ["sbclassifier/classifiers/basic.py::Classifier.spamprob", "sbclassifier/classifiers/basic.py::chi2Q"]}
{"id": "C93", "title": "When adding or removing a message raises", "statement": "Adding or removing a message that sends no signal, or that no trainer observes, never raises. Otherwise it raises exactly if the message cannot be trained: AttributeError if it has no key method, else the exception that tokenizing it raises. Whether or not it raises, the corpus has been changed: an added message is in it, a removed one is gone.", "quantifier": "every sequence of adding, removing and training, any number of corpora, trainers and classifiers, every order in which the trainers are called", "why_tests_cant": "Depends on the whole history and on the order in which observers are called.", "anchors": ["sbclassifier/corpora/base.py::Corpus.add_message", "sbclassifier/corpora/base.py::Corpus.remove_message", "sbclassifier/trainers.py::Trainer.train"]}
{"id": "C94", "title": "The label a message remembers", "statement": "is_trained() of a message is the label of the trainer that trained it last, whether that was because it was added to, or removed from, an observed corpus, or by a direct call; a failed training does not change it. In particular (contrary to the documentation of the trainer) a message that was removed from its corpus still counts as trained.", "quantifier": "every sequence of adding, removing and training, every order of observers", "why_tests_cant": "Every history and order of observers.", "anchors": ["sbclassifier/trainers.py::Trainer.train", "sbclassifier/message.py::Message.remember_trained", "sbclassifier/message.py::Message.is_trained", "sbclassifier/corpora/base.py::Corpus.remove_message"]}
{"id": "C95", "title": "What classifiers learn through corpora whose messages may fail", "statement": "After any history each classifier has exactly the word records of learning, in order, the trainable messages its trainers were asked to train. Its totals are those of that learning plus one for every call whose message could not be tokenized and whose first observer trains that classifier; trainers that would have been called after it see nothing of the message.", "quantifier": "every sequence of adding, removing and training, any number of classifiers, every order of observers", "why_tests_cant": "Needs all interleavings of good and bad messages over several corpora.", "anchors": ["sbclassifier/trainers.py::Trainer.train", "sbclassifier/corpora/base.py::Corpus.add_message", "sbclassifier/corpora/base.py::Corpus.remove_message", "sbclassifier/classifiers/basic.py::Classifier.learn"]}
{"id": "C96", "title": "Untraining undoes training", "statement": "A trainer's untrain right after its train of the same message restores the classifier's totals and word records, leaves other classifiers and corpora alone and makes the message untrained. If the message cannot be tokenized both calls raise that exception, the classifier is restored as well and the label stays as it was. If the classifier has no message with the trainer's label, untrain raises ValueError and changes nothing.", "quantifier": "every consistent classifier, every trainer and message", "why_tests_cant": "Every state of the classifier and every message.", "anchors": ["sbclassifier/trainers.py::Trainer.train", "sbclassifier/trainers.py::Trainer.untrain", "sbclassifier/message.py::Message.remember_trained"]}
{"id": "C97", "title": "Moving a message from the ham to the spam corpus", "statement": "A message that is added to a ham corpus, removed from it and added to a spam corpus ends labelled as spam, but the classifier has learned it twice as ham and once as spam: the ham counts of each of its words are two higher, the spam counts one.", "quantifier": "every message, classifier and corpora observed by one trainer each", "why_tests_cant": "Every message and prior state.", "anchors": ["sbclassifier/trainers.py::Trainer.__init__", "sbclassifier/trainers.py::Trainer.train", "sbclassifier/corpora/base.py::Corpus.remove_message"]}
{"id": "C98", "title": "A URL that failed is never tried again", "statement": "If the slurping classifier's slurp method once answered for a URL that it does not resolve, is not HTML or failed in an unknown way, every later call for that URL gives the same answer and makes no network access, whatever happened in between and even if the page is available by then.", "quantifier": "every sequence of calls, every behaviour of the network", "why_tests_cant": "Unbounded sequences of calls against an arbitrary changing network.", "anchors": ["sbclassifier/classifiers/slurping.py::SlurpingClassifier.slurp"]}
{"id": "C99", "title": "A remembered HTTP error is answered with a text instead of a list", "statement": "After slurp reported an HTTP error for a URL as a list of one token, every later call for that URL returns the token itself, a text, of which a caller that iterates over the tokens gets the characters; no network access is made.", "quantifier": "every sequence of calls, every behaviour of the network", "why_tests_cant": "Unbounded sequences of calls against an arbitrary changing network.", "anchors": ["sbclassifier/classifiers/slurping.py::SlurpingClassifier.slurp"]}
{"id": "C100", "title": "Pages are never stored, stored pages are confused", "statement": "A page of type text/html that is retrieved makes slurp raise AttributeError; nothing is remembered, so each further call retrieves it again. Tokens of a page are returned only if the corpus already holds a message under the URL's key; two URLs that differ only in punctuation share it.", "quantifier": "every URL, state and behaviour of the network", "why_tests_cant": "All URLs and all responses.", "anchors": ["sbclassifier/classifiers/slurping.py::SlurpingClassifier.slurp", "sbclassifier/classifiers/slurping.py::URL_KEY_RE"]}
{"id": "C101", "title": "A copied or unpickled message is empty", "statement": "A copy of a message (copy, deepcopy, pickle) has its id, classification and training label and nothing else: copies of messages which agree in these are the same, and every operation that needs headers or body raises AttributeError. Training a classifier on a copy raises AttributeError, counts one message and records no word.", "quantifier": "every message, every operation on its contents, every classifier", "why_tests_cant": "All messages and all states of the classifier.", "anchors": ["sbclassifier/message.py::Message.__getstate__", "sbclassifier/message.py::Message.__setstate__", "sbclassifier/classifiers/basic.py::Classifier.learn"]}
{"id": "C102", "title": "Adding a message that cannot be written", "statement": "Adding to a directory-backed corpus a message whose conversion to bytes raises (for example a copy) raises that exception and sends no signal, but the file of its key is empty afterwards, whatever it held; reopening the directory gives an empty message. Other files stay. After any history each file of a put key holds the message last put under it, or is empty if that message could not be written.", "quantifier": "every history of successful and failing calls, every key that matches the filter", "why_tests_cant": "Unbounded histories with failures at any place.", "anchors": ["sbclassifier/corpora/caches.py::FileCache.put", "sbclassifier/corpora/base.py::Corpus.add_message"]}
{"id": "C103", "title": "The ways of reading a corpus agree", "statement": "After any history of adding and removing, in a default or directory-backed corpus: keys are listed once each, a key is in the corpus exactly if it is listed and exactly if looking it up succeeds (otherwise KeyError), and get gives the looked up message or the default. In a default corpus the length is the number of keys and the values are the messages looked up under the keys. In a directory the values are messages with the bytes of the looked up ones and the file name as id; they cannot be listed (ValueError) if a message file has one of the two names reserved for statistics.", "quantifier": "every history, every key, every order of listing", "why_tests_cant": "Unbounded histories; memory and directory may hold different parts of the corpus.", "anchors": ["sbclassifier/corpora/base.py::Corpus.get", "sbclassifier/corpora/base.py::Corpus.__getitem__", "sbclassifier/corpora/base.py::Corpus.keys", "sbclassifier/corpora/base.py::Corpus.values", "sbclassifier/corpora/base.py::Corpus.__contains__", "sbclassifier/corpora/base.py::Corpus.__len__", "sbclassifier/corpora/base.py::Corpus.__iter__", "sbclassifier/corpora/caches.py::FileCache.values"]}
{"id": "C104", "title": "Emptying a corpus", "statement": "Removing all of list(corpus.values()) from a directory-backed corpus deletes all message files and no other file; doing the same with the messages looked up by key raises TypeError and deletes nothing in a directory that was just opened and has a message. A default corpus whose messages were added under their own ids is emptied by both; a message added under another key is not removed.", "quantifier": "every history, directory and order of listing", "why_tests_cant": "Unbounded histories and directories.", "anchors": ["sbclassifier/corpora/base.py::Corpus.values", "sbclassifier/corpora/base.py::Corpus.remove_message", "sbclassifier/corpora/caches.py::FileCache.values", "sbclassifier/corpora/caches.py::FileCache.pop"]}
{"id": "C105", "title": "Attachments and enclosed headers do not matter", "statement": "Two messages with the same top-level headers whose parts agree in content type, charset, disposition and file name, and whose text parts have the same contents, are tokenized to the same set of tokens (or both raise), train a classifier without bigrams in the same way and get the same score and evidence. The contents of parts of other types and the headers of enclosed parts and forwarded messages have no influence.", "quantifier": "every pair of messages of any depth and number of parts, every iteration order of sets, every classifier reached by any calls", "why_tests_cant": "All trees of parts and all attachments.", "anchors": ["sbclassifier/tokenizer.py::Tokenizer.__call__", "sbclassifier/tokenizer.py::textparts", "sbclassifier/tokenizer.py::Tokenizer.tokenize_body", "sbclassifier/classifiers/basic.py::Classifier.learn", "sbclassifier/classifiers/basic.py::Classifier.spamprob"]}
{"id": "C106", "title": "Parts are read one by one", "statement": "The tokens of a message are exactly the tokens of its parts, at any depth, each taken as a message of its own under the headers of the message; reading the message raises exactly if reading one of these raises. No text can be hidden by enclosing it, and a part that contains parts has no text of its own.", "quantifier": "every message of any depth and number of parts", "why_tests_cant": "All trees of parts.", "anchors": ["sbclassifier/tokenizer.py::Tokenizer.__call__", "sbclassifier/tokenizer.py::textparts", "sbclassifier/strippers.py::crack_content_xyz", "sbclassifier/tokenizer.py::Tokenizer.tokenize_body"]}
{"id": "C107", "title": "The order of parts", "statement": "Reordering or repeating the parts of a message changes neither what a classifier without bigrams learns nor the score. With bigrams this fails, even for one and the same message: what is learned depends on the order in which Python iterates over the set of its text parts.", "quantifier": "every message, every order and repetition of its parts, every iteration order of sets", "why_tests_cant": "The iteration order of a set of objects varies between runs.", "anchors": ["sbclassifier/tokenizer.py::textparts", "sbclassifier/tokenizer.py::Tokenizer.tokenize_body", "sbclassifier/classifiers/basic.py::Classifier.learn", "sbclassifier/classifiers/basic.py::Classifier._enhance_wordstream"]}
{"id": "C108", "title": "Learning a message decides how it is classified", "statement": "If no word of a message is in a learned message of the other label, then after the message is learned once, and as long as this remains so, it is classified under that label with a score above 0.9 (spam) or below 0.1 (ham), provided it has two different words. A message of one word is classified as ham after being learned as ham once (score below 0.2) and as spam after being learned as spam twice; after once it is unsure. The same holds for any message made of such words. Without bigrams.", "quantifier": "every history of learning and unlearning (fewer than 2^48 calls), every message of any length, every iteration order; double precision", "why_tests_cant": "All histories and messages; the score is a rounded result of up to 150 logarithms and a chi-squared tail.", "anchors": ["sbclassifier/classifiers/basic.py::Classifier.spamprob", "sbclassifier/classifiers/basic.py::Classifier._getclues", "sbclassifier/classifiers/basic.py::Classifier.probability", "sbclassifier/classifiers/basic.py::chi2Q", "sbclassifier/message.py::Message.set_classification"]}
{"id": "C109", "title": "Learning a message as spam can lower its score", "statement": "Learning a message as spam may lower the score of this very message: after twelve spam messages without its word and one ham message with it, the message gets a lower score once it is learned as spam than before.", "quantifier": "exists a history and message; double precision", "why_tests_cant": "The natural expectation (training as spam raises the score) quantifies over all histories; it is refuted by a proved witness.", "anchors": ["sbclassifier/classifiers/basic.py::Classifier.spamprob", "sbclassifier/classifiers/basic.py::Classifier.probability", "sbclassifier/classifiers/basic.py::Classifier.learn"]}
{"id": "C110", "title": "Words that are equally frequent in ham and spam do not count", "statement": "A word that occurs in the same fraction of the learned ham as of the learned spam, or in none, is never among the clues of a score, in double precision; a message all of whose candidate words are such gets a score of exactly 0.5.", "quantifier": "every history of learning and unlearning (fewer than 2^48 learned messages), every message, with and without bigrams", "why_tests_cant": "All counts and totals; rounding could push such a word over the threshold.", "anchors": ["sbclassifier/classifiers/basic.py::Classifier.probability", "sbclassifier/classifiers/basic.py::Classifier._getclues", "sbclassifier/classifiers/basic.py::Classifier.spamprob"]}
{"id": "C111", "title": "Which headers matter", "statement": "With the default header counting, two messages that differ only in headers whose names (in any letter case) are not among Subject, From, To, Cc, Sender, Reply-To, X-Mailer, Message-Id and the 18 counted names, and in the values of headers that are only counted (with mined Received headers: not in the values of Received either), give the same tokens in the same order, train a classifier without bigrams in the same way and get the same score (with bigrams: C146). Nothing can be left out of these lists: for each name there are messages differing only in that header with different tokens.", "quantifier": "every pair of header lists, every message body of any depth, every classifier reached by any calls, every iteration order", "why_tests_cant": "All header lists and all header names.", "anchors": ["sbclassifier/tokenizer.py::Tokenizer.tokenize_headers", "sbclassifier/tokenizer.py::Tokenizer.__call__", "sbclassifier/classifiers/basic.py::Classifier.learn", "sbclassifier/classifiers/basic.py::Classifier.spamprob"]}
{"id": "C112", "title": "Filtering does not influence training and scoring", "statement": "A message to which add_sb_headers has added its headers (with any options, any earlier filter headers, and also if it raises half way), and a message from which remove_sb_headers removed them, trains a classifier without bigrams and is scored by it exactly as before (with bigrams: C146), provided no notation was added to Subject or To. With a notation this is false, and the classification itself becomes a token of the message; it is also false when all header lines are counted.", "quantifier": "every message, options, clues and score; every classifier reached by any calls", "why_tests_cant": "All messages and combinations of options.", "anchors": ["sbclassifier/message.py::Message.add_sb_headers", "sbclassifier/message.py::Message.remove_sb_headers", "sbclassifier/tokenizer.py::Tokenizer.tokenize_headers", "sbclassifier/classifiers/basic.py::Classifier.spamprob"]}
{"id": "C113", "title": "Learned messages are recognised", "statement": "After a new classifier has learned any number of messages, all under one label, each of them, and every message that differs from one of them only in what the tokenizer does not read, is classified under that label with a score above 0.9 (spam) or below 0.1 (ham). With both labels learned this holds for every message whose words all occur in messages learned under that label and in none learned under the other.", "quantifier": "every list of fewer than 2^48 messages, of any depth and with any headers, that can be tokenized; every iteration order; double precision", "why_tests_cant": "All sets of messages; tokenizer, training and floating-point scoring together.", "anchors": ["sbclassifier/tokenizer.py::Tokenizer.__call__", "sbclassifier/classifiers/basic.py::Classifier.learn", "sbclassifier/classifiers/basic.py::Classifier.spamprob", "sbclassifier/message.py::Message.set_classification"]}
{"id": "C114", "title": "The database-backed classifier cannot be trained on messages", "statement": "A classifier kept in a database (ShelveClassifier) cannot be used with messages as the tokenizer splits them: training, untraining and scoring any message raises, because the tokens are bytes and the database takes text as keys. Whatever is done with messages, no word record of the database is added, changed or removed; storing, loading and reopening always succeed. But each failed training is counted: after storing and reopening, the total of the label has grown by one.", "quantifier": "every database that opens, every history of training, untraining and scoring messages, storing, loading and reopening; every message, with every option", "why_tests_cant": "All messages and histories; the existing tests train the database with words given as text.", "anchors": ["sbclassifier/classifiers/storage.py::ShelveClassifier._wordinfoget", "sbclassifier/classifiers/storage.py::ShelveClassifier._wordinfoset", "sbclassifier/tokenizer.py::Tokenizer.__call__", "sbclassifier/classifiers/basic.py::Classifier.learn", "sbclassifier/classifiers/basic.py::Classifier.spamprob"]}
{"id": "C115", "title": "What was put in a watched corpus is recognised after a restart", "statement": "Messages are added to, removed from and moved between corpora that trainers watch, some of them impossible to tokenize; then the pickled classifier is stored and opened by another process. A message that was added to a corpus watched by a trainer for spam (ham), and every message that looks the same to the tokenizer, is then classified as spam (ham) with a score above 0.9 (below 0.1), provided it could be tokenized and none of its words is in a message this classifier was trained on under the other label.", "quantifier": "every program of corpora, watchers and classifiers, every history of fewer than 2^48 calls and trainings, every message; every iteration order; double precision", "why_tests_cant": "All histories; observers, tokenizer, training, pickling and floating-point scoring together.", "anchors": ["sbclassifier/corpora/base.py::Corpus.add_message", "sbclassifier/trainers.py::Trainer.train", "sbclassifier/classifiers/storage.py::PickleClassifier.store", "sbclassifier/classifiers/storage.py::PickleClassifier.load", "sbclassifier/tokenizer.py::Tokenizer.__call__", "sbclassifier/classifiers/basic.py::Classifier.spamprob"]}
{"id": "C116", "title": "The layout of a plain text does not matter", "statement": "Two messages that differ only in the layout of their plain texts (letter case, amount and kind of white space, where lines are broken, order and repetition of the words) give the same set of tokens, train a classifier in the same way and get the same score and evidence. Plain means here: no <, &, =, : in the text and no line that looks like the first line of uuencoded data. The last condition is needed: wrapping a text so that a line starts with, say, begin 100 tests makes tokenizing the message raise. With bigrams the order of the words counts (learning the words of a text backwards leaves other records), but everything else about the layout of a one-part message does not: texts with the same sequence of words give the same list of tokens, so learning, unlearning and scoring act alike, for every storage.", "quantifier": "every pair of messages of any depth, every text, every classifier without bigrams reached by any calls, every iteration order", "why_tests_cant": "All texts and all ways to lay them out.", "anchors": ["sbclassifier/tokenizer.py::Tokenizer.tokenize_body", "sbclassifier/tokenizer.py::Tokenizer.tokenize_text", "sbclassifier/tokenizer.py::Tokenizer.__call__", "sbclassifier/classifiers/basic.py::Classifier.learn", "sbclassifier/classifiers/basic.py::Classifier.spamprob"]}
{"id": "C117", "title": "Padding a message does not change its score", "statement": "Adding words to a message, or removing them, does not change its score and evidence (without bigrams) if each of these words has a probability closer than 0.1 to 0.5; in particular words that were never learned, and words seen in the same fraction of the learned ham as of the learned spam. So a part all of whose words are unknown or are in the message already can be added anywhere between the parts of a message without changing its score. With bigrams this is false: an unknown word between two words separates a pair that counts.", "quantifier": "every classifier reached by any calls, every two sequences of words, every message and list of added parts of any depth; every iteration order; any number of words, whatever the limit on clues", "why_tests_cant": "All messages, and all words that could be added.", "anchors": ["sbclassifier/classifiers/basic.py::Classifier._getclues", "sbclassifier/classifiers/basic.py::Classifier.spamprob", "sbclassifier/classifiers/basic.py::Classifier.probability", "sbclassifier/tokenizer.py::Tokenizer.__call__"]}
{"id": "C118", "title": "What a training does to the other words", "statement": "Learning a spam message never raises the spam probability of a word that is not in it, learning a ham message never lowers it, and neither moves it by more than 1/(n+1), where n messages of that label have been learned before (in double precision: up to 4e-15). There is no such bound for the words of the message: for every n there is a history in which a word was seen in n ham messages and in no spam and has a probability below 1/6, and is above 0.9 after one spam message with this word is learned.", "quantifier": "every history in which only learned messages are unlearned, every message, word and label, with and without bigrams; exact arithmetic and double precision (fewer than 2^47 messages)", "why_tests_cant": "All histories; the bound depends on the number of learned messages.", "anchors": ["sbclassifier/classifiers/basic.py::Classifier.learn", "sbclassifier/classifiers/basic.py::Classifier.probability", "sbclassifier/classifiers/basic.py::Classifier._add_msg"]}
{"id": "C119", "title": "Learning everything again strengthens every clue", "statement": "A classifier that has learned each message k times gives every word a probability at least as far from 0.5, on the same side, as a classifier that has learned each once (in double precision: up to 8e-15). So, in exact arithmetic, no word that is significant enough to be a clue ceases to be so.", "quantifier": "every history in which only learned messages are unlearned, any order of learning, every k, every word; exact arithmetic and double precision", "why_tests_cant": "All histories and all numbers of repetitions.", "anchors": ["sbclassifier/classifiers/basic.py::Classifier.learn", "sbclassifier/classifiers/basic.py::Classifier.probability"]}
{"id": "C120", "title": "The score is a formula of the learned messages", "statement": "After any history of learning, unlearning learned messages and scoring, the score of a message is Fisher's combination (two chi-squared tails, C18) of Robinson's probabilities, computed from the number of learned messages of each label and how many of them contain the word, of at most 150 words of the message: those at least 0.1 away from 0.5, or 150 of these such that no other word is further away. The evidence lists just these words with these probabilities. Yet a further spam word (probability at least 0.6) can lower the score of a message.", "quantifier": "every history in which only learned messages are unlearned, every message with words of one type, every iteration order; without bigrams; exact arithmetic (for double precision see C90, C91)", "why_tests_cant": "All histories and messages: the specification of the whole classifier in one formula.", "anchors": ["sbclassifier/classifiers/basic.py::Classifier.spamprob", "sbclassifier/classifiers/basic.py::Classifier._getclues", "sbclassifier/classifiers/basic.py::Classifier.probability", "sbclassifier/classifiers/basic.py::Classifier.learn", "sbclassifier/classifiers/basic.py::Classifier.unlearn"]}
{"id": "C121", "title": "The same verdict on every machine", "statement": "Two machines with IEEE doubles, whose math libraries may differ (log and exp accurate to one unit in the last place) and whose sets may be enumerated in different orders, that make the same calls, or of which one opens the pickle that the other stored, report the same clues with bit-for-bit the same probabilities for every message, and scores that differ by at most 8e-12. So they classify it alike unless its score is within 9e-12 of one of the two cutoffs.", "quantifier": "every two such machines, every history of fewer than 2^48 calls, every message; with and without bigrams (the pickle: without)", "why_tests_cant": "The tests run on one machine with one math library and one hash seed.", "anchors": ["sbclassifier/classifiers/basic.py::Classifier.spamprob", "sbclassifier/classifiers/basic.py::Classifier.probability", "sbclassifier/classifiers/basic.py::chi2Q", "sbclassifier/classifiers/basic.py::Classifier._getclues", "sbclassifier/classifiers/storage.py::PickleClassifier.load", "sbclassifier/message.py::Message.set_classification"]}
{"id": "C122", "title": "The score in doubles is a formula of the learned messages", "statement": "The score a running program computes for a message (without bigrams), with fewer than 2^44 learned messages, is determined by these messages up to (3 n + 4)/10^12, n being their number: for each word Robinson's formula gives a probability from the numbers of learned ham and spam with the word; the used clues are the distinct words of the message whose value is at least 0.1 away from 0.5 (at most 150 of them, the farthest ones; words within 1e-14 of these borders may be treated either way); and Fisher's method combines their values.", "quantifier": "every platform math library (log and exp within one unit in the last place), every history in which only learned messages are unlearned, every message; unbounded numbers of words", "why_tests_cant": "The tests compare a few scores; rounding errors of the probabilities are magnified by the logarithm of one minus a probability close to one.", "anchors": ["sbclassifier/classifiers/basic.py::Classifier.spamprob", "sbclassifier/classifiers/basic.py::Classifier.probability", "sbclassifier/classifiers/basic.py::Classifier._getclues", "sbclassifier/classifiers/basic.py::chi2Q"]}
{"id": "C123", "title": "Words of one side never decide for the other", "statement": "If every word of a message (and with bigrams every pair of adjacent words) was in at least as large a part of the learned ham as of the learned spam, or was never seen, then no clue has a probability above 0.5, the score is at most 0.5 (plus 4e-12 for rounding), and the message is not classified as spam; and mirrored. So, contrary to what a user who moves it expects, a message of such words that is moved from an observed ham corpus to an observed spam corpus is not classified as spam afterwards, although it is labelled as trained as spam, as long as there was at most twice as much ham as spam.", "quantifier": "every platform math library, every history in which only learned messages are unlearned, every message; every program with observed corpora", "why_tests_cant": "The tests train and score single messages; whether moving a message works depends on all totals and counts.", "anchors": ["sbclassifier/classifiers/basic.py::Classifier.spamprob", "sbclassifier/classifiers/basic.py::Classifier.probability", "sbclassifier/corpora/base.py::Corpus.add_message", "sbclassifier/corpora/base.py::Corpus.remove_message", "sbclassifier/trainers.py::Trainer.train", "sbclassifier/message.py::Message.set_classification"]}
{"id": "C124", "title": "A message learned again and again is recognised in the end, unless all its words are common on the other side", "statement": "If a message has at least one word that is in no learned ham, then learning it as spam again and again is enough: from some number of times on, its score (in exact arithmetic, without bigrams) is above 0.9 and it is classified as spam, whatever its other words are; and mirrored. The expectation that this holds for every message is refuted: a message all of whose words are in every learned ham is never classified as spam, however often it is learned as spam (in double precision); and mirrored.", "quantifier": "every history in which only learned messages are unlearned, every message, every number of repetitions from some number on; for the second part every platform math library", "why_tests_cant": "It is about arbitrarily many repetitions of a call.", "anchors": ["sbclassifier/classifiers/basic.py::Classifier.learn", "sbclassifier/classifiers/basic.py::Classifier.spamprob", "sbclassifier/classifiers/basic.py::Classifier.probability", "sbclassifier/classifiers/basic.py::chi2Q"]}
{"id": "C125", "title": "Processes must take turns at a shared database to train it; processes that only score may overlap", "statement": "If several programs open the same database and each does all of its work (any learn, unlearn, spamprob, store, load calls) before the next opens it, every call returns what it would return if a single program made all the calls, opening the database anew in between, and so does the final database. Programs that only score, load or open may overlap in any way: the database does not change and each call returns what it would return alone. The expectation that overlapping programs have the effect of some order of them is refuted, and so is the weaker one that, if all calls of overlapping programs that only learn and store return normally, the database can be used afterwards: two programs that learn one message each can leave a count of two for a word beside a total of one, after which scoring that word raises in every program.", "quantifier": "every number of programs, every program, every database, every interleaving of the single accesses to the database", "why_tests_cant": "The number of interleavings grows exponentially, and no test controls at which access another process is scheduled.", "anchors": ["sbclassifier/classifiers/storage.py::ShelveClassifier.load", "sbclassifier/classifiers/storage.py::ShelveClassifier.store", "sbclassifier/classifiers/storage.py::ShelveClassifier._wordinfoget", "sbclassifier/classifiers/storage.py::ShelveClassifier._wordinfoset", "sbclassifier/classifiers/storage.py::ShelveClassifier._post_training"]}
{"id": "C126", "title": "However processes overlap, a shared database stays readable and the calls fail only in known ways", "statement": "However any number of programs that learn, unlearn, score, store and load overlap, the database never contains anything but the totals with the current version and words with non-negative counts of which one is positive, so it can always be opened. Opening, load() and store() always return. In exact arithmetic, learn raises nothing but KeyError, and only if some program unlearns; unlearn raises nothing but ValueError or KeyError; spamprob raises nothing but the two errors about counts above the totals, or KeyError if some program unlearns. Refuted: that scoring always returns beside a program that only learns; that learn always returns beside a program that unlearns.", "quantifier": "every number of programs, every program with encodable words other than the reserved key, every well-kept database, every interleaving", "why_tests_cant": "The number of interleavings grows exponentially, and no test controls at which access another process is scheduled.", "anchors": ["sbclassifier/classifiers/storage.py::ShelveClassifier.load", "sbclassifier/classifiers/storage.py::ShelveClassifier.store", "sbclassifier/classifiers/storage.py::ShelveClassifier._wordinfoget", "sbclassifier/classifiers/basic.py::Classifier.probability"]}
{"id": "C127", "title": "load() refreshes an object except for probabilities it has already computed", "statement": "load() on an object makes it answer all later calls as a freshly opened one would, whatever others have done to the database, if the totals in the database are those the object had, or if the next call on the object is learn or unlearn. The expectation that it always does is refuted (in exact arithmetic): an object that has scored a message, and is refreshed with load() after another program has learned a message without any of its words, still uses the old probabilities and misses a clue that a freshly opened object reports.", "quantifier": "every history of the object, every well-kept database found by load(), all later calls that reload only what was stored", "why_tests_cant": "It compares two objects for arbitrary histories and arbitrary changes made by others.", "anchors": ["sbclassifier/classifiers/storage.py::ShelveClassifier.load", "sbclassifier/classifiers/basic.py::Classifier.probability", "sbclassifier/classifiers/basic.py::Classifier.spamprob"]}
{"id": "C128", "title": "The text form of a message has network line endings, and falls back on its parts", "statement": "as_string() of a message returns a text in which every line ends with CR LF, whatever the payload. If the email package can write the message, the lines are those it writes. If it refuses with TypeError, and the payload is a non-empty list of messages, the text consists of the lines of the text forms of the parts in order; neither the message's own headers nor the argument mangle_from_ matter then. An exception comes from a message in it that the email package refuses: its own exception, or, if that is TypeError, TypeError when the payload is None and AttributeError when it is a non-empty text or bytes. Refuted: that the headers of the message are in its text form whenever the email package would write them; that with mangle_from_=False no mark is put before a line beginning with From.", "quantifier": "every message with any nesting of parts and any payloads, every behaviour of the email package's generator, both arguments", "why_tests_cant": "It covers all nested structures and whatever the email package does; tests cover a few messages.", "anchors": ["sbclassifier/message.py::Message.as_string", "sbclassifier/message.py::force_crlf"]}
{"id": "C129", "title": "The tokens of a text, and the records a classifier keeps, are bounded by the size of the text", "statement": "If the body tokenizer handles a text part of n characters without an exception, it yields at most 8n/7 tokens, which together have at most 10n characters. A classifier holds at most as many word records as the learned and not unlearned messages have words, so after learning any texts of n characters in total (without bigrams) it holds at most 8n/7. The expectation that the tokens mined from a Received header (MINE_RECEIVED_HEADERS) also have a size linear in the header is refuted: a host name of n labels gives tokens of a size growing with the square of n.", "quantifier": "every text, every list of texts learned as ham or spam; for records every history in which only learned messages are unlearned, with and without bigrams", "why_tests_cant": "It is a worst-case bound over all inputs; a test measures particular inputs.", "anchors": ["sbclassifier/tokenizer.py::Tokenizer.tokenize_text", "sbclassifier/tokenizer.py::Tokenizer.tokenize_body", "sbclassifier/strippers.py::URLStripper", "sbclassifier/tokenizer.py::breakdown_host", "sbclassifier/classifiers/basic.py::Classifier.learn"]}
{"id": "C130", "title": "Exchanging ham and spam mirrors the score in double precision, except for words at the threshold", "statement": "If all learn and unlearn calls are repeated on a second classifier with the opposite label, on a machine with the same or another math library, then a message without a word whose probability lies within 10^-14 of the threshold for clues, and with at most 150 clues, has the same clues for both classifiers, and its two scores add up to 1 up to 2 (3 n + 4) / 10^12 for n learned messages. Without the restriction on the words it is refuted for every machine: after learning a word in 6 of 158 spam and 3 of 121 ham messages the message consisting of it scores about 0.6, while the classifier with exchanged labels scores it about 0.5, because rounding makes the word a clue for one and not for the other.", "quantifier": "every history of fewer than 2^44 learned messages in which only learned messages are unlearned, every message, every two platform math libraries", "why_tests_cant": "It relates two classifiers over all histories; the exception needs 279 messages chosen so that a sum is rounded at the threshold.", "anchors": ["sbclassifier/classifiers/basic.py::Classifier.learn", "sbclassifier/classifiers/basic.py::Classifier.spamprob", "sbclassifier/classifiers/basic.py::Classifier.probability", "sbclassifier/classifiers/basic.py::Classifier._getclues"]}
{"id": "C131", "title": "A trainer trains exactly the messages that reach it while the program keeps it", "statement": "For every program that creates trainers, gives up its references to them, adds messages to corpora, removes them and calls train, in any order: each classifier has learned each message once for every trainer of it that had the corpus in its list, was created before the call and had not been given up; a corpus listed twice counts once, several trainers count each, removal trains once more. Calls that reach no trainer change no classifier. Refuted: that a message added after a trainer for its corpus was created is learned (the signals hold trainers weakly, so a trainer nobody keeps does nothing), and that messages already in the corpus are learned when a trainer for it is created.", "quantifier": "every program of any length with any number of trainers, corpora and classifiers (without bigrams), all messages tokenizable, every order in which a signal calls its receivers", "why_tests_cant": "It quantifies over all interleavings of creation, disposal and corpus calls.", "anchors": ["sbclassifier/trainers.py::Trainer.__init__", "sbclassifier/trainers.py::Trainer.train", "sbclassifier/corpora/base.py::Corpus.add_message", "sbclassifier/corpora/base.py::Corpus.remove_message"]}
{"id": "C132", "title": "Padding a message with enough strong words decides its score alone", "statement": "If a message is padded with text that has at least 150 different words with a probability at least 0.1 away from 0.5, each of them farther away than every word of the message that is not in the padding, then score and evidence are those of the padding alone (without bigrams): the message itself has no influence. In particular, if each word of a message is in fewer than k learned messages, padding made of 150 or more words each of which is in at least k learned ham messages and in no spam turns it into ham with a score below 0.1, however it was classified before; and mirrored. So it is refuted that a message classified as spam stays so when words are added.", "quantifier": "every history of calls, every message and padding; the first part in every arithmetic that orders numbers totally, the second in double precision on every machine, k up to 100000", "why_tests_cant": "It quantifies over all messages, paddings and histories; the comparison of strengths involves rounding.", "anchors": ["sbclassifier/classifiers/basic.py::Classifier._getclues", "sbclassifier/classifiers/basic.py::Classifier.spamprob", "sbclassifier/classifiers/basic.py::Classifier.probability"]}
{"id": "C133", "title": "Joining two messages never reverses their classification", "statement": "If two messages were scored by no common word and by fewer than 150 words together, and both have a score of at least t (at most 1-t), then a message with the words of both has a score of at least 2t-1 (at most 2-2t), up to 2e-11 for rounding (without bigrams). So the words of two spam messages together are never classified as ham, and those of two ham messages never as spam. Refuted: that two messages classified as spam together are spam; this fails when the words that make them spam are the same.", "quantifier": "every history of fewer than 2^48 calls, every pair of messages, double precision on every machine", "why_tests_cant": "It needs an inequality between sums of Poisson distributions for all numbers of clues; tests sample a few messages.", "anchors": ["sbclassifier/classifiers/basic.py::Classifier.spamprob", "sbclassifier/classifiers/basic.py::Classifier._getclues"]}
{"id": "C134", "title": "With bigrams, a message learned once is recognised if three of its words were learned", "statement": "With bigrams, if no word and no pair of adjacent words of a message is in a learned message of the other label, and at least three different words of it (not of the form of a pair, or at least not the text of a pair of this message) are in learned messages of the label b, the message scores on the side of b with more than 0.9 and is classified as b. So a message learned once as b is recognised if three different words of it were learned; that are words before the last of a list, or words at the positions 0, 4, 7, 10, ... of a generator. A generator of at most three words is not learned at all: a message of such unknown words scores exactly 0.5 afterwards. Refuted: that two or three different words are enough for a list (without bigrams two are), and that four are for a generator.", "quantifier": "every history of fewer than 2^48 calls, every message, both labels, double precision on every machine", "why_tests_cant": "It quantifies over all messages and histories; which clues are used depends on how words and pairs overlap and on rounding.", "anchors": ["sbclassifier/classifiers/basic.py::Classifier._get_clues", "sbclassifier/classifiers/basic.py::Classifier._enhance_wordstream", "sbclassifier/classifiers/basic.py::Classifier.learn", "sbclassifier/classifiers/basic.py::Classifier.spamprob"]}
{"id": "C135", "title": "After any history: which messages cannot be scored, and how to repair that", "statement": "After any history of calls, also with messages unlearned that were never learned, scoring a message (words of one string type; with bigrams, text words, and None never learned) raises exactly when one of its words (with bigrams: or pairs of adjacent words) is recorded in more spam or ham messages than the total of that label, an empty total counting as one; it then raises the bare exception that says so and never anything else, in particular no division by zero and no failing logarithm. A count never exceeds its total by more than the number of unlearn calls of that label. Therefore learning as many messages of each label as were unlearned, none containing the message's words, makes the message scorable again.", "quantifier": "every history of fewer than 2^48 calls, every message, double precision on every machine", "why_tests_cant": "The histories are unrestricted and unbounded; tests only try a few unlearn calls that do not match.", "anchors": ["sbclassifier/classifiers/basic.py::Classifier.probability", "sbclassifier/classifiers/basic.py::Classifier.spamprob", "sbclassifier/classifiers/basic.py::Classifier.unlearn", "sbclassifier/classifiers/basic.py::Classifier._remove_msg"]}
{"id": "C136", "title": "Comments, style sheets and noframes sections put into a text do not hide its words", "statement": "Putting whole comments, style sections and noframes sections into a text, anywhere (also in the middle of words) and any number of them, does not change its tokens: tokenizing yields the same tokens in the same order, or raises the same exception after the same tokens, provided that neither text contains a URL, a numeric entity, the beginning of uuencoded data or a virus clue, and that the shown text has no opening angle bracket. Two messages whose text parts show the same words up to letter case, layout, word order and such sections have the same set of tokens, train a classifier alike and get the same score. The provisos matter: a comment that contains a URL makes the message untokenizable, because the URL is removed first and takes the end of the comment with it.", "quantifier": "all texts and all ways to insert such sections; all message trees; every history of the classifier", "why_tests_cant": "There are unboundedly many places and contents; a test tries one comment in one word.", "anchors": ["sbclassifier/strippers.py::Stripper.analyze", "sbclassifier/strippers.py::CommentStripper", "sbclassifier/strippers.py::StyleStripper", "sbclassifier/strippers.py::NoframesStripper", "sbclassifier/tokenizer.py::Tokenizer.tokenize_body"]}
{"id": "C137", "title": "Damaged constant databases: what iterating reports and what it hides", "statement": "Listing the items of any file, whatever its bytes, comes to an end: it returns at most (size - 2048) / 8 records, every key and value of which is a piece of the file, exactly as the lengths stored in the file lay them out, or it raises struct.error when a record begins too close to the end of the file (ValueError for an empty file). Of a written database that was cut short, all items are returned if only the hash tables are damaged; if the cut is inside of the last record after its lengths, all items are returned with the last one shortened and no error; if it is before that, struct.error is raised. So truncation is not always noticed. A file to which the header, written last, was never written opens as an empty database: no items, every get returns the default.", "quantifier": "all byte sequences; all databases below 4 GiB with ASCII keys and values and all lengths they are cut to", "why_tests_cant": "The files are arbitrary; tests write and read complete databases.", "anchors": ["sbclassifier/cdb.py::Cdb.__init__", "sbclassifier/cdb.py::Cdb.__iter__", "sbclassifier/cdb.py::Cdb.get", "sbclassifier/cdb.py::cdb_make"]}
{"id": "C138", "title": "Header tokens and body tokens are kept apart, except for words that imitate header tokens", "statement": "Every token that comes from the headers of a message begins with a label such as 'subject:', 'from:' or 'content-type:'; no label is the beginning of another one, so tokens of different headers never coincide. As long as no word of 3 to 12 characters in the texts begins with a label (in particular if the texts contain no colon), the tokens with a label are determined by the header the label belongs to (the values of that header, the content headers of the parts, or the names of the headers), whatever the texts and the other headers are; the tokens without a label are always determined by the text parts, whatever the headers are. The same holds for what a classifier without bigrams learns: words of one kind get the same score from two classifiers whose training messages agree on that origin. But texts are not checked for labels: every word of 3 to 12 characters is a token as it stands, so a text with the word 'from:none' yields the token of a message without From header.", "quantifier": "all messages that can be tokenized, all lists of training messages, all words", "why_tests_cant": "Needs all messages and all training lists; a test compares the tokens of a few.", "anchors": ["sbclassifier/tokenizer.py::Tokenizer.tokenize_headers", "sbclassifier/tokenizer.py::Tokenizer.tokenize_body", "sbclassifier/tokenizer.py::tokenize_word", "sbclassifier/strippers.py::crack_content_xyz", "sbclassifier/classifiers/basic.py::Classifier.learn"]}
{"id": "C139", "title": "The convenience methods and the evidence flag", "statement": "Calling spamprob with or without evidence=True leaves the classifier in the same state and gives the same score (with evidence it is the first component of the pair), and one call raises an exception if and only if the other does, and the same one; this holds for every classifier with any store. In a program that trains a classifier with learn_spam, learn_ham, unlearn_spam and unlearn_ham and scores in between, where every unlearn is given a message that is learned on that side, no training call raises, the totals are the numbers of messages currently learned by learn_spam and learn_ham and the record of each word has the numbers of these messages that contain it; words in none of them have no record.", "quantifier": "all classifiers and stores, all programs of such calls, all messages, with and without bigrams", "why_tests_cant": "Needs all classifier states and all call sequences; a test tries one message per method.", "anchors": ["sbclassifier/classifiers/basic.py::Classifier.spamprob", "sbclassifier/classifiers/basic.py::Classifier.learn_spam", "sbclassifier/classifiers/basic.py::Classifier.learn_ham", "sbclassifier/classifiers/basic.py::Classifier.unlearn_spam", "sbclassifier/classifiers/basic.py::Classifier.unlearn_ham"]}
{"id": "C140", "title": "What the filter writes in the headers of a message", "statement": "add_sb_headers with a number never raises. It appends, in this order, the classification (ham below 0.2, otherwise spam above 0.9, otherwise unsure) and, as far as switched on, the score, the level, the evidence and the id; then, if switched on for this classification, it puts the notation in front of the first To and the first Subject header, in whatever letter case these are spelled, or adds such a header if there is none; nothing else is changed. The evidence shows, in order, exactly the two indicators *H* and *S* and the clues at or below the cutoff or at or above one minus the cutoff; for the evidence of a classifier it always begins with *H* and *S*. If the message had no filter headers before, current_sb_headers then returns exactly the headers written (a missing id counts as not written). With a classification instead of a number the same holds if score and level are switched off, otherwise TypeError is raised after the classification was written; with anything else ValueError is raised and nothing changes.", "quantifier": "all messages, scores, clue lists and options", "why_tests_cant": "Needs all header lists, clue lists and combinations of options; a test looks at a few.", "anchors": ["sbclassifier/message.py::Message.add_sb_headers", "sbclassifier/message.py::Message.add_notations", "sbclassifier/message.py::Message.set_classification", "sbclassifier/message.py::Message.current_sb_headers"]}
{"id": "C141", "title": "Different pairs of words are counted separately", "statement": "With bigrams, the record of a pair of words is stored under the text bi:X Y where a bytes word is shown by its repr: b, then the word between single quotes, or between double quotes if it has single quotes but no double ones; the quote used and the backslash are preceded by a backslash, tab, newline and return are \\t, \\n and \\r, other bytes that are not printable ASCII are \\x and two hexadecimal digits, and the rest stands for itself. Pairs of bytes words, which are all the tokenizer yields, never share a record whatever characters they contain, and never share one with a single bytes word. So after learning any messages given as lists of bytes words, the record of a pair counts exactly the messages in which the first word is directly followed by the second, and the record of a word the messages in which it is before the last position. Pairs of text words are told apart if their first words contain no blank. Refuted for arbitrary text words: 'a b','c' and 'a','b c' share a record, and so do a bytes word and the text of its repr.", "quantifier": "all words, all lists of messages", "why_tests_cant": "Needs all words, including quotes, blanks and control characters.", "anchors": ["sbclassifier/classifiers/basic.py::Classifier._enhance_wordstream", "sbclassifier/classifiers/basic.py::Classifier.learn"]}
{"id": "C142", "title": "Text tokens become bytes without loss", "statement": "Tokenizing a message yields, for every token of the headers and the body in order, its bytes: a text token in UTF-8 (shortest form, no surrogates), a bytes token unchanged. The first token that is a text with a surrogate code point ends it with UnicodeEncodeError, a None with TypeError; the tokens before it have been yielded. Every text without surrogates has exactly one encoding, and different texts have different ones, so two lists of text tokens yield the same bytes only if they are equal; a text token and a bytes token can yield the same. cdb_make raises UnicodeEncodeError if a key or value contains a surrogate.", "quantifier": "all messages, all options, all texts of code points up to 10FFFF", "why_tests_cant": "Needs all code points, in all combinations.", "anchors": ["sbclassifier/tokenizer.py::convert_to_bytes", "sbclassifier/tokenizer.py::Tokenizer.__call__", "sbclassifier/cdb.py::cdb_make"]}
{"id": "C143", "title": "What slurp asks of the network and what it answers", "statement": "slurp of the URL-slurping classifier, for a URL about which nothing is remembered: an empty URL is answered url:non_resolving and a URL that begins with a colon, slash or backslash raises AttributeError, both without any access; with the option for base URLs every URL raises TypeError. Otherwise the host (up to the first colon, slash or backslash) is resolved, with the digits behind a colon as port; if that fails the answer is url:non_resolving. If no page is stored, a URL whose part behind the last dot is jpg, gif, png, css or js is answered url:non_html without being requested; any other is requested exactly once as proto://url. A failure whose text is HTTP Error and a number is answered url:http_ with that number, other failures url:unknown_error, a page that is not text/html url:non_html, each remembered under that kind only; a page of text/html raises AttributeError and nothing is remembered.", "quantifier": "all URLs, all behaviours of the network, all remembered URLs", "why_tests_cant": "Needs all texts as URLs and an arbitrary network.", "anchors": ["sbclassifier/classifiers/slurping.py::SlurpingClassifier.slurp"]}
{"id": "C144", "title": "A message with words the database cannot hold is learned in part, and unlearn takes exactly that part back", "statement": "If some word of a message is not a text, or a text with a surrogate code point, then learning the message with the database-backed classifier raises (AttributeError or UnicodeEncodeError, according to the first such word in the order in which the set of words is visited): the message is counted in the total and exactly the words visited before that word are counted; nothing else changes. Which words these are depends on that order alone, so the same call can leave different records. Unlearning the same message with the same order raises the same exception, and then totals and records are as before the two calls, and every later series of calls, stores, loads and re-openings (with a store before the first load) has the same outcomes as if the two calls had not been made. Scoring such a message always raises.", "quantifier": "every reachable database, every later or earlier history of encodable words, every message without the reserved word, every order of the set", "why_tests_cant": "Needs all states and all orders in which a set may be visited.", "anchors": ["sbclassifier/classifiers/storage.py::ShelveClassifier._wordinfoget", "sbclassifier/classifiers/basic.py::Classifier._add_msg", "sbclassifier/classifiers/basic.py::Classifier._remove_msg"]}
{"id": "C145", "title": "Binary logarithms in tokens are right in floating point, except for rounding down at powers of two", "statement": "The tokens with a rounded binary logarithm (recipients, addresses without a name, image sizes) hold the integer nearest to the true logarithm although it is computed as a quotient of two floating-point logarithms. The token for runs of short words holds the logarithm rounded down unless the length is a power of two above 1; then the number can be one too small and nothing else. That it is always right for powers of two is refuted: two machines whose logarithm is off by at most a relative 2^-52 give 3 and 2 for a run of 8 words.", "quantifier": "every count from 1 to 2^32 - 1, every machine with doubles whose math.log has a relative error of at most 2^-52", "why_tests_cant": "All counts up to 2^32 and all mathematical libraries of that accuracy.", "anchors": ["sbclassifier/tokenizer.py::log2", "sbclassifier/tokenizer.py::Tokenizer.tokenize_headers", "sbclassifier/tokenizer.py::Tokenizer.tokenize_text", "sbclassifier/tokenizer.py::IMAGE_SIZE"]}
{"id": "C146", "title": "Training on a message with one text can be undone after reading it again", "statement": "A message with at most one text part gives the same tokens in the same order whenever it is read, so with and without bigrams: learning it, reading it again (also after other headers that the tokenizer does not look at were added or changed, and in particular after add_sb_headers wrote into it without notation) and unlearning it restores all records and both totals, after any history of calls, also if the message cannot be tokenized; the second call then ends like the first. And it is learned, unlearned and scored by every kind of classifier exactly as before. Without bigrams training is undone in the same way for messages with any number of parts, also if meanwhile the parts were reordered or attachments replaced. With two text parts and bigrams this is refuted: a pair of words can remain in the records of a classifier that has no messages left.", "quantifier": "every message with at most one text part, every history, every way in which Python iterates over sets", "why_tests_cant": "All messages and histories; the order in which a set of objects is iterated differs from run to run.", "anchors": ["sbclassifier/tokenizer.py::textparts", "sbclassifier/tokenizer.py::Tokenizer.__call__", "sbclassifier/classifiers/basic.py::Classifier.learn", "sbclassifier/classifiers/basic.py::Classifier.unlearn", "sbclassifier/message.py::Message.add_sb_headers"]}
{"id": "C147", "title": "Writing a constant database into any file, and runs of cdb_make that fail", "statement": "cdb_make writes the header last. If it returns, the file begins with the complete database, the rest of what was in the file before follows, and (ASCII items, less than 4 GiB) listing gives exactly the items and a lookup by the published rules the first value of each key, whatever the file contained. If it ends with an exception, whichever (a text that cannot be encoded, a size over the limit, the iterable of items raising, a write that fails or is interrupted, at any of the writes), the first 2048 bytes are as before: a new file is left empty or as a database without items, where every get returns the default. Without such a disturbance it fails exactly when it fails on an empty file, with the same exception. If a value cannot be encoded, the records before it and its lengths and key have been written. So a database that was in the file does not survive a failed run (refuted): its header then describes records that were overwritten, and listing can return a new key with an old value.", "quantifier": "every content of the file, every list of items, every place where the run is ended", "why_tests_cant": "All contents and all places of interruption; a test can end a run in a few places only.", "anchors": ["sbclassifier/cdb.py::cdb_make", "sbclassifier/cdb.py::Cdb.__iter__", "sbclassifier/cdb.py::Cdb.get"]}
