# Design: a machine-checked model of sbclassifier

Prover: Rocq/Coq 8.16.1, sources in `rocq/theories`, logical name `Verif`.
The Python code in `/repo` is read as text only; it is never run.

## How the code is modelled

* **Exceptions are values.** `res A := Ok a | Err e`; a method that mutates an
  object and may raise is a function `state -> state * res A`, so what was
  already mutated when the exception leaves the method is visible.
* **Function by function.** Every definition in a `*Model.v` file cites file and
  lines. Virtual dispatch (a base class method calling `_wordinfoget`, `pop`, ...)
  is modelled by passing a record of functions (`backend`).
* **Words** are Python values: text (`list N` of code points), bytes (`list N`),
  or `None`. Text and bytes never compare equal; ordering them raises TypeError.
* **Dictionaries and sets** are std++ `gmap`/`gset`. Where Python iterates over
  a set, the model takes an arbitrary enumeration function as a parameter and
  the theorems quantify over all of them.
* **Arithmetic** is a record of operations (`num`). Structural theorems hold for
  every instance. Numeric theorems use real numbers with a rounding function
  applied after every operation (`rnum rnd`): `rnd = id` is exact arithmetic,
  any monotone rounding that fixes the constants covers IEEE doubles without
  overflow, NaN and signed zero. `rnd = b64` (Flocq: 53 bits, minimal exponent
  -1074, ties to even) is IEEE double precision with gradual underflow and
  without overflow. The class `machine` (RealModel.v) weakens this to what a
  platform provides: results up to 2^1023 are rounded as by `b64`, larger ones
  are arbitrary; math.log (of a positive double) and math.exp (of a double at
  most 0) have a relative error of at most 2^-52 (plus 2^-1074 for exp). All
  theorems about double precision (C89 - C92, C108 - C110, C113, C115,
  C117 - C119, C121 - C124) hold for every `machine`; `ieee` and `odd_machine` are two
  instances. NaN and infinities are not values of the model; that none arises
  is what the bounds on the intermediate results show.
* **Crash points** are prefixes of a log of individual writes; **schedules** are
  arbitrary lists of process ids.
* **Regular expressions** are syntax trees interpreted by a small backtracking
  matcher with Python's leftmost/greedy/ordered-choice semantics.

## File layout

| file | contents |
|---|---|
| `Py.v` | exceptions, results, words, strings, orders |
| `*Model.v` | the models, no proofs |
| `*Spec.v` | small specifications, independent of the models |
| `*Proofs.v` | lemmas |
| `*Cases.v` | concrete cases that meet the hypotheses, witnesses of refutations |
| `*Props.v` | the property theorems only, `exact lemma`, `Print Assumptions` |

The models and how they relate:

| model | code | remarks |
|---|---|---|
| `NumModel.v`, `RealModel.v` | the arithmetic of basic.py | parameter of all models of classifiers |
| `ClassifierModel.v` | classifiers/basic.py | the word store is a parameter (`backend`) |
| `RaiseModel.v` | learn, unlearn of basic.py | the same methods called with a generator that may raise; equal to `ClassifierModel.v` when it does not |
| `ShelveModel.v`, `PickleModel.v`, `CdbClassModel.v` | classifiers/storage.py, safepickle.py | store back ends for `ClassifierModel.v` |
| `ShareModel.v` | ShelveClassifier of classifiers/storage.py | several processes at one database, interleaved at single operations on it; equal to `ShelveModel.v` for a process that is alone (C125). The database is assumed to be atomic per key and not locked |
| `OutModel.v` | Message.as_string of message.py | messages as trees; the email package's Generator is a parameter; list payloads contain messages only |
| `CdbModel.v` | cdb.py | bytes of the file |
| `CacheModel.v` | corpora/caches.py | writing succeeds; `CopyModel.v`: the message may fail to be written; `ReadModel.v`: listing and reading |
| `CorpusModel.v` | corpora/base.py, corpora/filesystem.py, trainers.py | tokenizing succeeds, one classifier; `ObserveModel.v`: tokenizing may raise, several classifiers, messages remember their label; `LifeModel.v`: trainers that are created and go away |
| `MessageModel.v`, `LevelModel.v`, `CopyModel.v` | message.py | headers and attributes; stars of the level header; copies of messages |
| `StripModel.v` (with `Regex.v`) | strippers.py | options as in the module; `OptModel.v`: the other values |
| `TokenModel.v` | tokenizer.py: words, texts, text parts | options as in the module; `OptModel.v`: the other values |
| `HeadModel.v` | tokenizer.py: headers; crack_content_xyz of strippers.py | as `TokenModel.v`; the parts of a message are given as lists |
| `OptModel.v` | tokenizer.py, strippers.py | equal to `TokenModel.v` and `HeadModel.v` for the settings of the modules (C88) |
| `TreeModel.v` | tokenizer.py: messages as trees of parts | lists of parts computed from the tree, then `HeadModel.v` |
| `NetModel.v` | iputils.py, dnsutils.py, host helpers of tokenizer.py | |
| `SlurpModel.v` | classifiers/slurping.py up to setup | setup raises, so retrieval is not reached (C64); `FetchModel.v`: retrieval called directly |

## Properties

All are proved; what a title claims and what is false of the code is in the statement of
`properties.jsonl`, limits are in the note of `MANIFEST.json`. A theorem named `..._refuted`
proves the negation of a natural claim.

| id | title | what is modelled | how it is proved |
|---|---|---|---|
| C01 | Training counts equal the multiset of currently trained messages | `learn/unlearn/spamprob` on an object with totals, word dictionary and cache; history = list of calls | refinement: abstraction of a history to the list of currently learned messages; induction over the history |
| C02 | unlearn undoes learn | as C01 | case analysis per word, invariant "no empty record" for all reachable states |
| C03 | Training order, word order and repetition are irrelevant | as C01, arbitrary set-enumeration functions | the word map after training is characterised pointwise by counting |
| C04 | Counts never go negative and no empty record is kept | as C01, unrestricted histories | invariant by induction over histories |
| C05 | A refused unlearn changes nothing | as C01 | direct, plus "raises iff total = 0" |
| C06 | Words not in the message keep their counts | as C01 | pointwise characterisation of learn/unlearn |
| C07 | The probability cache is transparent | cache as nested map | invariant: every cached value is what the formula gives for the present totals; erase-scores simulation |
| C08 | Scoring never raises on a consistently trained classifier | as C01 + numeric instance over R | C01 gives counts <= totals; strict (0,1) bounds give positive logs; witness by computation over rationals |
| C09 | Word probability is strictly between 0 and 1 and equals the documented formula | `probability` over `rnum` | real algebra; monotone rounding argument |
| C10 | Word probability is monotone in the evidence while the totals are balanced | `probability` over exact reals | real algebra |
| C11 | Selected clues are the strongest ones | `_getclues` unigram branch | sort = sorted permutation; suffix of a sorted list |
| C12 | The score does not depend on word order or repetition | `_getclues`, `spamprob` | uniqueness of the sorted enumeration |
| C13 | Bigram tiling never uses a token twice | `_getclues` bigram branch | invariant of the greedy loop |
| C14 | The score is a number in [0,1] | `chi2Q`, `spamprob` over `rnum rnd` | interval reasoning under monotone rounding |
| C15 | Without significant clues the score is exactly one half | `spamprob` | computation on the empty clue list |
| C16 | Swapping ham and spam mirrors the score | two states related by label swap, exact reals | p -> 1-p, symmetric sums |
| C17 | The score is monotone in the clues | combining of clue lists, exact reals | monotonicity of logs and of the tail |
| C18 | chi2Q is the chi-squared tail for even degrees of freedom | `chi2Q`, exact reals | power series of exp bounds, derivative of the tail |
| C19 | The underflow guard does not change the result | the frexp loop, exact reals | loop invariant |
| C20 | The evidence list is complete and ordered | `spamprob` with evidence | stable sort lemma |
| C21 | Bigram training documents a b c but learns a, a b, b, b c | `_enhance_wordstream` for lists and for one-shot iterators | induction on the list |
| C22 | Scoring mixed or bigrammed byte tokens can raise TypeError | sorting with mixed types | characterisation of the error; witness by computation |
| C23 | The database-backed classifier behaves like the in-memory classifier | `ShelveClassifier` with database, memory map, changed and deleted sets | refinement with an abstraction function per word |
| C24 | Nothing is lost by store and re-open | `store`, `load` | from the invariant of C23 |
| C25 | Listing the words of a stored database | `_wordinfokeys` | from the invariant of C23, witnesses |
| C26 | A crash between calls leaves a usable database when nothing was unlearned | database write log | invariant over all log prefixes; witness |
| C27 | The reserved key and non-text words break the database-backed classifier | as C23 with typed keys | direct |
| C28 | Pickle store and load round-trip | `PickleClassifier` over an abstract pickle codec with a round-trip law | direct |
| C29 | A read failure silently becomes an empty classifier | as C28 with a fault oracle | direct |
| C30 | Pickle writing is atomic on one file system only | `pickle_write` as a list of file-system steps | enumeration of prefixes, induction over copied chunks |
| C31 | Readers and writers of the pickle never see a partial file, but updates can be lost | processes running read/write scripts against lock + file | invariant over all schedules; witness schedules |
| C32 | The cdb-backed classifier cannot persist, and its format would swap ham and spam | `CDBClassifier` with and without a `cdb` module | direct |
| C33 | A plain classifier does not survive pickling | `__getstate__/__setstate__`, missing attribute as `None` | direct |
| C34 | Iterating a written cdb returns what was written | byte-level `cdb_make`, `__iter__` | induction over records |
| C35 | cdb_make writes a correct constant database | hash tables by linear probing | probe-sequence invariant |
| C36 | cdb lookup by key never succeeds | `findnext` with typed keys | loop invariant |
| C37 | The in-memory cache respects its size limit | `NaiveCache` | invariants over histories |
| C38 | The cache is first-in first-out as long as no cached key is put again | `NaiveCache` | invariants over histories |
| C39 | An empty cache handed to a corpus is ignored | `FileCache`, `Corpus.__init__`, `FileCorpus.__init__` with a directory as a map | invariants over histories |
| C40 | Evicting from the directory-backed cache deletes message files | `FileCache`, `Corpus.__init__`, `FileCorpus.__init__` with a directory as a map | invariants over histories |
| C41 | Memory and disk of the directory-backed cache agree | `FileCache`, `Corpus.__init__`, `FileCorpus.__init__` with a directory as a map | invariants over histories |
| C42 | The length of a directory-backed cache is frozen at construction | `FileCache`, `Corpus.__init__`, `FileCorpus.__init__` with a directory as a map | invariants over histories |
| C43 | Corpus add/remove bookkeeping and signals | `Corpus`, signals, `Trainer` | invariants over histories |
| C44 | Removing a message from an observed corpus trains it again | `Corpus`, signals, `Trainer` | invariants over histories |
| C45 | Expiry never removes a message | `remove_expired_messages` with a clock oracle | induction over the key list |
| C46 | A message id can be set only once | `set_id` | invariant over call sequences |
| C47 | Classification thresholds | `set_classification`, `is_unsure` | order reasoning |
| C48 | Removing the filter's headers removes all of them and nothing else | header list with case-insensitive names | induction over header lists |
| C49 | Adding then removing the filter's headers restores the message | header list with case-insensitive names | induction over header lists |
| C50 | The two notation options of remove_sb_headers are exchanged | header list with case-insensitive names | induction over header lists |
| C51 | Classifying twice keeps reporting the first classification | header list with case-insensitive names | induction over header lists |
| C52 | Line endings are normalised | `force_crlf` | induction over strings |
| C53 | The evidence header loses no clue but can exceed the line limit | evidence wrapping loop | induction; explicit family of witnesses |
| C54 | The exception header goes into the header section and preserves the message | `insert_exception_header`; `email.header.Header` is a function parameter | splitting lemma |
| C55 | The level header is proportional to the score | `int(prob*10)` over reals | floor arithmetic |
| C56 | Strippers keep everything outside the stripped regions | a backtracking matcher for the fragment of `re` in use, `Stripper.analyze`, the regular expressions | matcher = relation `matches`; each expression specified on characters; induction over the text |
| C57 | URL tokens keep trailing punctuation | a backtracking matcher for the fragment of `re` in use, `Stripper.analyze`, the regular expressions | matcher = relation `matches`; each expression specified on characters; induction over the text |
| C58 | Tokenizing a word: exact outcome for every word | `tokenize_word`, `tokenize_text` | case analysis; induction over the text |
| C59 | A line such as 'begin 644 name' makes tokenizing raise | a backtracking matcher for the fragment of `re` in use, `Stripper.analyze`, the regular expressions | matcher = relation `matches`; each expression specified on characters; induction over the text |
| C60 | Host names and addresses break down into their suffixes and prefixes | `breakdown_*` | induction over labels |
| C61 | Subnet clues contain the address and are nested | `subnets` on 32-bit integers | bit arithmetic |
| C62 | The global socket timeout is restored | `timed` around any function; threads with atomic read, set, restore steps | case analysis; induction over nested schedules; invariant; witness schedule |
| C63 | Memoisation returns what the function would return | `memoize` as a big-step relation with and without the dictionary | mutual induction on derivations; induction over call sequences |
| C64 | The URL-slurping classifier is unusable and harmless | `SlurpingClassifier` up to the point where setup raises | refinement: a history acts like its scoring calls alone; induction |
| C65 | A message read back from the directory cannot be removed | `FileCache.__getitem__`, `pop`, `remove_message` | direct |
| C66 | Undecoded 8-bit bytes in Subject or To make header removal fail | header list, `remove_sb_headers`, `current_sb_headers` | induction over header lists |
| C67 | Saved filter headers can be restored | header list, `remove_sb_headers`, `current_sb_headers` | induction over header lists |
| C68 | NNTP host mining raises for nearly every message | `mine_nntp` with any resolver | case analysis |
| C69 | The base of a URL | `base_url` | label lists |
| C70 | Tokenizing a text part: exactly which texts raise, and the tokens of the others | `tokenize_body` for text parts (options as set in the module), `try_to_repair_damaged_base64`; payload decoding is input | each expression specified on characters; determinism of the specification; induction over parts |
| C71 | A part that cannot be decoded makes tokenizing raise; what the base64 repair returns | `tokenize_body` for text parts (options as set in the module), `try_to_repair_damaged_base64`; payload decoding is input | each expression specified on characters; determinism of the specification; induction over parts |
| C72 | The order of the text parts does not matter | `tokenize_body` for text parts (options as set in the module), `try_to_repair_damaged_base64`; payload decoding is input | each expression specified on characters; determinism of the specification; induction over parts |
| C73 | Training on a message that cannot be tokenized changes the message total | `learn`, `unlearn` with a generator that raises | case analysis, induction over attempts |
| C74 | The tokens of the headers of a MIME part | `crack_content_xyz`, `crack_filename` for any values returned by the email package | case analysis |
| C75 | Which subjects are tokenized, and into what | the subject part of `tokenize_headers`; `decode_header` is any function, Unicode tables are a record of functions | maximal runs specified on characters, determinism, induction over pieces; `_refuted` with a long word |
| C76 | The tokens of address headers | address headers; `getaddresses` is any function | induction over addresses; cutting at a separator |
| C77 | Header counts | header counts, all four option settings | invariant of the counting dictionary; permutations; absence `_refuted` |
| C78 | The message id token | `message_id_re` | specification on characters, uniqueness of the host |
| C79 | Recipient counts and the mailer token | recipient counts, `log2` (computed exactly, in floating point: C145), X-Mailer | integer bounds for the nearest logarithm, unique |
| C80 | Summaries of recipient addresses | prefix and suffix summaries | longest common prefix: universal property, permutation invariance |
| C81 | Mining Received headers | `received_*_re`, `breakdown_host`, `breakdown_ipaddr` | each expression specified on characters, leftmost match, determinism |
| C82 | Tokenizing a whole message | `Tokenizer.__call__`, `tokenize_headers`, `tokenize_body` put together (DNS and NNTP options off as set in the module), then `learn` | the specification of each section shown equivalent to the model, then composed: sound, complete, determined up to order |
| C83 | Basic header tokens | arguments of `tokenize_headers`, `basic_skip` | the header list specified word by word, equivalent to the model; `_refuted` with an X- header |
| C84 | Habeas headers | the Habeas section, both options | the nine headers restated; counting loop characterised |
| C85 | Octet streams and image sizes | octet-stream and image sections | case analysis per payload, nearest logarithm |
| C86 | Runs of short words | `tokenize_text` with X_SHORT_RUNS | runs specified on the word list, invariant of the counting loop; `_refuted` with a trailing run |
| C87 | Options that make text parts raise | `url_fancy_re`, `URLStripper.tokenize`, REPLACE_NONASCII_CHARS | expression specified on characters (look-ahead included); a stripper whose tokens may raise |
| C88 | Tokenizing a whole message with options | the whole call under all these options | composed as C82; equal to the model of C82 for the settings of the modules |
| C89 | Scoring in double precision never raises | as C08, arithmetic of every `machine`: IEEE doubles (Flocq, gradual underflow), any overflow, log and exp within one unit in the last place | words have probabilities in [2^-53, 1 - 2^-53]; the guard keeps products above 2^-665, so every factor leaves a positive double |
| C90 | Accuracy of the probability of a word | the formula in doubles | calculus of relative errors (each operation a factor 1 +- 2^-53) |
| C91 | Accuracy of the score | products, rescaling, logarithms, series in doubles | relative errors of products; absolute error of the logarithms; induction over the series with relative and underflow parts; the tail is 1-Lipschitz; halving and doubling are exact, which leaves room for the error of log and exp |
| C92 | Raising probabilities in double precision | two scores | C91 and monotonicity of Fisher's combination |
| C93 | When adding or removing a message raises | `add_message`, `remove_message`, `train` with a tokenizer that may raise, several classifiers, receivers in any order, messages that remember a label (`ObserveModel.v`) | simulation invariant by induction over the calls and over the receivers |
| C94 | The label a message remembers | as C93 | same invariant; refutation by a concrete history |
| C95 | What classifiers learn through corpora whose messages may fail | as C93 | same invariant; learning commutes with a change of the totals |
| C96 | Untraining undoes training | as C93, `untrain` | C02 and C73 |
| C97 | Moving a message from the ham to the spam corpus | as C93 | three learn steps, counts pointwise |
| C98 | A URL that failed is never tried again | `slurp` with the caches of failed URLs; DNS, HTTP and the corpus of pages arbitrary, per call (`FetchModel.v`) | invariant "known URLs stay known" over the calls; tokens of pages contain a quotation mark, so they are no failure tokens |
| C99 | A remembered HTTP error is answered with a text instead of a list | as C98 | same invariant for the HTTP errors; refutation by computation |
| C100 | Pages are never stored, stored pages are confused | as C98 | case analysis of one call |
| C101 | A copied or unpickled message is empty | CopyModel.v: state tuple of a message, contents as an attribute that may be missing, `learn` on a raising stream (RaiseModel.v) | case analysis; C73's lemma for training |
| C102 | Adding a message that cannot be written | CopyModel.v: FileCache.put with a conversion to bytes that may raise after the file has been opened, add_message | invariant over histories; equal to CacheModel.v when nothing raises |
| C103 | The ways of reading a corpus agree | ReadModel.v: keys, `in`, values of both caches; the order of dictionaries and directory listings is a parameter | invariants of C37 and C41 |
| C104 | Emptying a corpus | ReadModel.v: two programs that remove all messages | induction over the listed messages |
| C105 | Attachments and enclosed headers do not matter | TreeModel.v: messages as trees of parts; walk, textparts, Tokenizer.__call__, learning and scoring the generator | induction over the tree; the tokens depend only on the sets of nodes and of text payloads; order-independence of training and scoring (C02, C12) |
| C106 | Parts are read one by one | as C105 | characterization of the set of tokens of a call by its sources |
| C107 | The order of parts | as C105 | instance of C105; refuted with bigrams by a letter with two text parts |
| C108 | Learning a message decides how it is classified | the modelled calls over every `machine`, classification of message.py | `OnceProofs.v`: for n clues of at least 0.8448 the chi-squared tail at n·L is at most e^k L^n/((L-1) e^(nL)) (geometric bound on the terms, n^k/k! ≤ e^k) and one minus the tail at m at most m^n/n! (mean value theorem); n = 2, 3 by evaluation, n ≥ 4 by the bounds, n = 1 exactly; then C11 (which words are clues), C90 (their probabilities) and C91 (the rounded score); the one-word exception by computation |
| C109 | Learning a message as spam can lower its score | as C108 | witness: twelve spam messages, one ham message |
| C110 | Words that are equally frequent in ham and spam do not count | as C90 | Robinson's formula gives 1/2 for equal fractions; C90 bounds the rounding, which stays far below the threshold 0.1; C15 for the score |
| C111 | Which headers matter | HeadModel.v and TreeModel.v; the headers that are seen are specified by two lists of names | every access to the header list factors through the list of seen headers; one witness per name for minimality |
| C112 | Filtering does not influence training and scoring | as C111, with `add_sb_headers` and `remove_sb_headers` of MessageModel.v, also when they raise | each step keeps the headers of others (C48); names of the filter are not seen; refutations by computation |
| C113 | Learned messages are recognised | as C105 and C108: tokenizing, learning and scoring over every `machine` | every message has two words; C108 applied to the words of the learned messages; C111 for the messages that look the same |
| C114 | The database-backed classifier cannot be trained on messages | as C27 with the messages of C105; a history of operations on messages is interpreted by `run_mops` (MailboxSpec.v) | invariant on the database and the cached words: nothing pending is a word; every token is bytes and there is at least one |
| C115 | What was put in a watched corpus is recognised after a restart | as C95, C28, C105 and C113 | the trainings of a history are a list of learned messages, failed ones being empty messages; C108 on this list; loading gives the same training (C28); C111 for messages that look the same |
| C116 | The layout of a plain text does not matter | as C105; `laid_out` relates messages of the same tree whose plain text leaves have the same words after lower-casing (LayoutSpec.v) | on a plain text the strippers leave the text as it is (the specification of C70), so the tokens are those of the words, each on its own; membership over the tree (C106); training and scoring depend on the set of tokens (C03, C12) |
| C117 | Padding a message does not change its score | as C12 and C106 | the significant clues of the two sets of words are the same set without repetition, and sorting has one result on them; words of even or no count are weak in double precision (C110); the witness for bigrams is computed over exact arithmetic: learn a b as spam and a c as ham, score a b and a x b |
| C118 | What a training does to the other words | as C09 and C90; `formula` (SwaySpec.v) is the probability in terms of the learned messages | the share of spam as a function of the spam total only: its difference is a x / ((a t + x)(a (t+1) + x)) at most 1/(t+1); mirrored for ham (C16); rounding by C90; the history with n ham messages by counting |
| C119 | Learning everything again strengthens every clue | as C118; `times k` is the list of messages k times over | the shares do not change, the weight n/(0.45+n) grows (at most by the factor 3/2, which bounds the effect of rounding around 0.5) |
| C120 | The score is a formula of the learned messages | as C118 | C01 for the counts, C09 for the probabilities, C11 for the words used, C17/C18 for the score; the witness by bounds on exp at 3 and 0.6 |
| C121 | The same verdict on every machine | as C89, C12 and C28; two arithmetics side by side | training does not compute with probabilities; the probabilities of words are those of `b64` on every machine (`prob_machine`), so distances, sorting and tiling agree (the clue lists are mapped onto each other); C91 for each of the scores |
| C122 | The score in doubles is a formula of the learned messages | as C89 and C120 | C90 for the probabilities, C91 for the score; the formula stays 1/(7n) away from one, so the logarithms of p and 1 - p are off by a known amount; the chi-squared tail is Lipschitz with constant 1; C11 for the clues, with margins for the rounding |
| C123 | Words of one side never decide for the other | as C89, C97 | cross-multiplied counts order the two fractions (`leans`), hence the formula is on one side of 1/2; a clue is 0.1 away from 1/2, which rounding cannot undo; monotonicity (C17) against all probabilities 1/2; moving adds 1 to the spam and 2 to the ham counts, which keeps the inequality |
| C124 | A message learned again and again is recognised in the end, unless all its words are common on the other side | as C120 and C123 | with k repetitions, k at least twice the messages of the label, the formula of every word of the message is above 0.4 on its side, so every clue is at least 0.6; the new word is within 0.225/(0.45+k) of certainty; a chi-squared tail bound shows that one such clue outweighs up to 149 clues of 0.6; monotonicity (C17). The other direction: the words lean to the other side for every k (C123) |
| C125 | Processes must take turns at a shared database to train it; processes that only score may overlap | ShareModel: any number of ShelveClassifier objects on one database, scheduled between any two operations on the database (membership, reading, assignment, deletion of a key); `self.db.get` is two operations | a process alone: every function of ShareModel follows its counterpart in ShelveModel, at each of its operations on the database (ShareSoloProofs); induction over the programs. Readers: they see a constant database. Refuted by runs of two processes |
| C126 | However processes overlap, a shared database stays readable and the calls fail only in known ways | as C125 | rely/guarantee invariant: whatever the others do keeps the database well kept (and, if nobody unlearns, keys never vanish); each operation on the database of each function preserves it; induction over the schedule. Refuted by runs |
| C127 | load() refreshes an object except for probabilities it has already computed | ShelveModel, load() on the contents left by others | both objects simulate the same in-memory classifier if the cached probabilities are valid for the new totals; training clears the cache. Refuted by a computed witness |
| C128 | The text form of a message has network line endings, and falls back on its parts | OutModel: `as_string` on trees of messages, with the email generator as a parameter | the facts about force_crlf (TextProofs), lines of texts joined by a line feed, induction over the size of the message; refuted with a small concrete generator |
| C129 | The tokens of a text, and the records a classifier keeps, are bounded by the size of the text | TokenModel/StripModel (tokens of a text part), HeadModel (Received), ClassifierModel | what a stripper removes and what it yields is bounded by what it found; each word yields tokens of at most a constant times its length (the case of the label of a skipped word gives the constant); records: the words of the store are among the learned ones (C01). Refuted by the header `from a.a…a)` for every number of labels |
| C130 | Exchanging ham and spam mirrors the score in double precision, except for words at the threshold | as C122 | both scores are within the bound of C122 of the formula; the formula of the exchanged messages is 1 minus the formula; clear-cut words are used by both. Refuted by computing the roundings of the counts 6/158, 3/121 (MirrorCases: rounding to nearest by integer arithmetic, ties to even) |
| C131 | A trainer trains exactly the messages that reach it while the program keeps it | LifeModel: Trainer.__init__ connecting to the two signals, trainers going away, on top of ObserveModel | invariant: the table of connections seen from a signal and a corpus is the list of living trainers in order of creation (with identities); each call is a call of ObserveModel with these receivers, so its effect on the classifiers is that of C95; counting by induction. Refuted by two short programs |
| C132 | Padding a message with enough strong words decides its score alone | spamprob, _getclues, probability (ClassifierModel) | the used clues of both messages are 150, those of the padded message are words of the padding (a pigeonhole argument), and two sorted choices of 150 strongest clues are equal; in doubles the strengths of words in k and in fewer messages differ by more than the rounding error. Refuted by 150 ham words learned twice |
| C133 | Joining two messages never reverses their classification | spamprob, spamprob with evidence, classification (ClassifierModel) | chi_tail is a Poisson distribution function; the binomial theorem gives its convolution, and from it P(a)P(b) as a lower bound for both indicators of the joined clues; the error bound of C91 for the three scores. Refuted by evaluating Fisher's method with rational bounds for exp and ln |
| C134 | With bigrams, a message learned once is recognised if three of its words were learned | learn, _enhance_wordstream, spamprob, _get_clues with bigrams (ClassifierModel) | a clue covers at most two positions of the message, so three different words with strong probabilities need two clues (from the tiling property of C13); all clues are on the side of the label; Fisher's method on two such clues exceeds 0.9 (bounds of C108). Refuted by a list of three words where one pair wins the tie and hides the others The theorems of PairOnceProps.v need less of the words (each is not the text of a pair of this message): one clue covers at most two positions (C13), so three different words need two clues; for the counterexamples every learned candidate contains the first position. |
| C135 | After any history: which messages cannot be scored, and how to repair that | learn, unlearn, spamprob, probability (ClassifierModel) | the outcome of every call is traced to the first word whose probability raises; the formula in doubles returns for all consistent counts (C90) and raises for all others; counts and totals are compared by induction over the history |
| C136 | Comments, style sheets and noframes sections put into a text do not hide its words | the strippers and tokenize_body (StripModel, TokenModel), messages (TreeModel) | for each stripper a text is cut into sections to drop and pieces in which no section can begin, by the first non-blank character after each angle bracket; induction over the pieces gives what is left, and what is left determines the tokens (C70) |
| C137 | Damaged constant databases: what iterating reports and what it hides | Cdb.__init__, __iter__, items, get, cdb_make (CdbModel) | iterating is related to the relation reads by induction over the fuel, which never runs out; for a cut file the records before the cut are read as in C34 and the record at the cut is found by induction over the items |
| C138 | Header tokens and body tokens are kept apart, except for words that imitate header tokens | Tokenizer.__call__, tokenize_headers, tokenize_body, crack_content_xyz (HeadModel, TokenModel, TreeModel), Classifier.learn, spamprob (ClassifierModel) | the header tokens are split into fourteen pieces, each shown to yield only words with its labels; the labels clash pairwise and with proto:, url:, skip:, virus: and control: (computed once); the scores are compared record by record with the refinement of C01 |
| C139 | The convenience methods and the evidence flag | Classifier.spamprob with and without evidence, learn_spam, learn_ham, unlearn_spam, unlearn_ham (ClassifierModel, EntryModel) | the two forms of spamprob share the clues and the combination; a program of convenience calls is related to the calls of C01, with the spam and the ham messages kept in two separate lists |
| C140 | What the filter writes in the headers of a message | Message.add_sb_headers, add_notations, set_classification, current_sb_headers (MessageModel), Classifier.spamprob (ClassifierModel) | the header list is computed for the sixteen combinations of switches; spellings of names, the selection of clues and the two notations are specified by relations without the lower-casing, filter and replacement functions of the model; reading back uses that the names written differ in lower case |
| C141 | Different pairs of words are counted separately | Classifier._enhance_wordstream, learn (ClassifierModel), repr of bytes (Py) | repr is shown to be uniquely decodable from the left (no unescaped quote inside), so the name of a pair determines the pair; the records follow from the refinement of C01 PairReprSpec.v says by an inductive relation how a word is written; the relation determines the text. |
| C142 | Text tokens become bytes without loss | convert_to_bytes (TokenModel), Tokenizer.__call__ (HeadModel), cdb_make (CdbModel) | induction over the tokens; an encoded character is determined by the first byte and the length it announces, so decoding is a function |
| C143 | What slurp asks of the network and what it answers | slurp, retrieve (FetchModel) | the specification cuts the URL itself (names_host, last_piece, has_status); the regular expressions and split are shown to find exactly these parts, then by cases on the network |
| C144 | A message with words the database cannot hold is learned in part, and unlearn takes exactly that part back | ShelveModel.v (backend of the database), ClassifierModel.v (learn, unlearn, scoring with an arbitrary order of the set); HalfSpec.v says which words fit, what is raised for the others and what one more message does to a record. | The order is split at the first word that does not fit; the loop lemma of the words that fit (ShelveProofs.v) describes the part that was learned, the same loop for removing undoes it (unbump after bump on well-formed records). The object afterwards satisfies the invariant and agrees with the same in-memory classifier as before (one is constructed from memory and database), so the simulation of C23 gives equal outcomes for every later history. |
| C145 | Binary logarithms in tokens are right in floating point, except for rounding down at powers of two | LogModel.v: `log2` of tokenizer.py on an arbitrary machine (RealModel.v), `round` and `int` of its value. | The quotient is within 256*2^-53 of the logarithm (relative errors of both logarithms, the division and its rounding). No square below 2^64 is within a factor 1 - 2^-41 of an odd power of two: for each of the 33 powers the nearest squares are computed, all other squares follow by monotony; so the error cannot carry the quotient across a half. For rounding down, ln b - ln a >= 1/b for integers a < b. The refutation computes the quotient for 8 on two machines (LogCases.v). |
| C146 | Training on a message with one text can be undone after reading it again | tokenizer.textparts (TreeModel), learn and unlearn with a generator (RaiseModel), add_sb_headers (MessageModel); SoleSpec.v counts the text parts by an inductive relation. | An order of a list with at most one element is that list, so the tokens are equal; C111 lets the headers differ, C02 and the lemmas for raising generators restore the state. The counterexample is computed for a message of two texts in two orders. |
| C147 | Writing a constant database into any file, and runs of cdb_make that fail | cdb_make write by write, on a file with any contents, with an exception from outside at any write and an iterable that may raise (CdbWriteModel.v). | A relation between a piece of the program and the bytes it appends, closed under sequencing, gives the bytes of the whole run; success is compared with CdbModel.cdb_make, and the layout lemma of C34/C35 holds with anything after the tables. The refutation is computed. |

## Trusted base

* The Coq kernel, and `coqc`'s parsing of the statements.
* Axioms: only those of the Coq standard library, as listed below; none of our own.
* The reading of the Python source: the model is written by hand.
* What the standard library and other packages do, as far as it is a parameter
  or a law in a model: the email package's parser and generator (parsed headers,
  parts, payloads, addresses and decoded words are inputs), Unicode tables, `math.exp/log`
  as implemented by the platform (within one unit in the last place), the
  pickle byte format (a round-trip law), dbm back ends (a map with atomic
  writes), the lockfile package (mutual exclusion), DNS and HTTP (arbitrary answers),
  the order of sets, dictionaries and directory listings (arbitrary, or as specified by Python).
* Not modelled at all: logging, the formatting of floats, threads inside one interpreter (except in
  C62), memory exhaustion, signals other than those of corpora, images (CRACK_IMAGES: needs a package that
  is not part of the project), X_LOOKUP_IP (reached only after the line that raises, C87).

### What Print Assumptions lists

393 of the 479 property theorems are "Closed under the global context", that is all but the following.

| theorem | axioms |
|---|---|
| `C08_scoring_never_raises_after_matched_training` | classic, functional_extensionality_dep, sig_forall_dec, sig_not_dec |
| `C09_formula_compares_ratios` | functional_extensionality_dep, sig_forall_dec |
| `C09_formula_strictly_between_0_and_1` | functional_extensionality_dep, sig_forall_dec |
| `C09_probability_is_the_documented_formula` | classic, functional_extensionality_dep, sig_forall_dec, sig_not_dec |
| `C09_rounded_probability_in_unit_interval` | classic, functional_extensionality_dep, sig_forall_dec, sig_not_dec |
| `C10_more_ham_never_raises` | functional_extensionality_dep, sig_forall_dec |
| `C10_more_spam_never_lowers` | functional_extensionality_dep, sig_forall_dec |
| `C10_unbalanced_totals_refuted` | functional_extensionality_dep, sig_forall_dec |
| `C14_score_in_unit_interval` | classic, functional_extensionality_dep, sig_forall_dec, sig_not_dec |
| `C16_exchanging_labels_mirrors_the_score` | classic, functional_extensionality_dep, sig_forall_dec, sig_not_dec |
| `C17_score_monotone_in_the_clues` | classic, functional_extensionality_dep, sig_forall_dec, sig_not_dec |
| `C18_chi2Q_is_the_chi_squared_tail` | classic, functional_extensionality_dep, sig_forall_dec, sig_not_dec |
| `C18_tail_range_and_monotonicity` | classic, functional_extensionality_dep, sig_forall_dec, sig_not_dec |
| `C19_score_is_fisher_of_the_evidence` | classic, functional_extensionality_dep, sig_forall_dec, sig_not_dec |
| `C19_underflow_guard_is_exact` | classic, functional_extensionality_dep, sig_forall_dec, sig_not_dec |
| `C22_generators_of_bytes_with_bigrams_raise` | classic, functional_extensionality_dep, sig_forall_dec, sig_not_dec |
| `C22_lists_of_bytes_with_bigrams_raise` | classic, functional_extensionality_dep, sig_forall_dec, sig_not_dec |
| `C22_two_byte_tokens_with_bigrams_raise` | classic, functional_extensionality_dep, sig_forall_dec, sig_not_dec |
| `C26_scoring_works_at_every_crash_point` | classic, functional_extensionality_dep, sig_forall_dec, sig_not_dec |
| `C47_cutoffs_in_exact_arithmetic` | classic, functional_extensionality_dep, sig_forall_dec, sig_not_dec |
| `C55_level_header_in_binary64` | classic, functional_extensionality_dep, sig_forall_dec, sig_not_dec |
| `C55_stars_in_binary64` | classic, functional_extensionality_dep, sig_forall_dec, sig_not_dec |
| `C55_stars_in_exact_arithmetic` | classic, functional_extensionality_dep, sig_forall_dec, sig_not_dec |
| `C89_scoring_in_doubles_never_raises` | classic, functional_extensionality_dep, sig_forall_dec, sig_not_dec |
| `C90_double_evidence_is_the_formula` | classic, functional_extensionality_dep, sig_forall_dec, sig_not_dec |
| `C90_double_probability_is_the_formula` | classic, functional_extensionality_dep, sig_forall_dec, sig_not_dec |
| `C91_double_score_is_fishers` | classic, functional_extensionality_dep, sig_forall_dec, sig_not_dec |
| `C92_double_score_monotone` | classic, functional_extensionality_dep, sig_forall_dec, sig_not_dec |
| `C108_any_message_of_such_words` | classic, functional_extensionality_dep, sig_forall_dec, sig_not_dec |
| `C108_learning_a_message_once_decides_it` | classic, functional_extensionality_dep, sig_forall_dec, sig_not_dec |
| `C108_one_word_learned_as_ham_once` | classic, functional_extensionality_dep, sig_forall_dec, sig_not_dec |
| `C108_one_word_learned_as_spam_once_refuted` | classic, functional_extensionality_dep, sig_forall_dec, sig_not_dec |
| `C108_one_word_learned_as_spam_twice` | classic, functional_extensionality_dep, sig_forall_dec, sig_not_dec |
| `C109_learning_as_spam_never_lowers_the_score_refuted` | classic, functional_extensionality_dep, sig_forall_dec, sig_not_dec |
| `C110_even_words_are_never_clues` | classic, functional_extensionality_dep, sig_forall_dec, sig_not_dec |
| `C110_messages_of_even_words_score_one_half` | classic, functional_extensionality_dep, sig_forall_dec, sig_not_dec |
| `C113_learned_messages_are_recognised` | classic, functional_extensionality_dep, sig_forall_dec, sig_not_dec |
| `C113_words_of_one_side` | classic, functional_extensionality_dep, sig_forall_dec, sig_not_dec |
| `C115_delivered_messages_are_recognised` | classic, functional_extensionality_dep, sig_forall_dec, sig_not_dec |
| `C115_words_of_one_side` | classic, functional_extensionality_dep, sig_forall_dec, sig_not_dec |
| `C116_order_of_words_with_bigrams_refuted` | classic, functional_extensionality_dep, sig_forall_dec, sig_not_dec |
| `C117_even_words` | classic, functional_extensionality_dep, sig_forall_dec, sig_not_dec |
| `C117_weak_words_between_pairs_refuted` | classic, functional_extensionality_dep, sig_forall_dec, sig_not_dec |
| `C118_one_message_outweighs_many` | classic, functional_extensionality_dep, sig_forall_dec, sig_not_dec |
| `C118_other_words_double` | classic, functional_extensionality_dep, sig_forall_dec, sig_not_dec |
| `C118_other_words_exact` | classic, functional_extensionality_dep, sig_forall_dec, sig_not_dec |
| `C119_learning_again_double` | classic, functional_extensionality_dep, sig_forall_dec, sig_not_dec |
| `C119_learning_again_exact` | classic, functional_extensionality_dep, sig_forall_dec, sig_not_dec |
| `C120_a_further_spam_word_never_lowers_the_score_refuted` | classic, functional_extensionality_dep, sig_forall_dec, sig_not_dec |
| `C120_score_in_terms_of_the_learned_messages` | classic, functional_extensionality_dep, sig_forall_dec, sig_not_dec |
| `C121_same_score_on_every_machine` | classic, functional_extensionality_dep, sig_forall_dec, sig_not_dec |
| `C121_same_verdict_on_every_machine` | classic, functional_extensionality_dep, sig_forall_dec, sig_not_dec |
| `C121_stored_classifier_on_another_machine` | classic, functional_extensionality_dep, sig_forall_dec, sig_not_dec |
| `C122_double_score_in_terms_of_the_learned_messages` | classic, functional_extensionality_dep, sig_forall_dec, sig_not_dec |
| `C123_message_moved_to_spam_is_classified_as_spam_refuted` | classic, functional_extensionality_dep, sig_forall_dec, sig_not_dec |
| `C123_moved_message_is_not_classified_as_spam` | classic, functional_extensionality_dep, sig_forall_dec, sig_not_dec |
| `C123_words_of_one_side_never_decide_for_the_other` | classic, functional_extensionality_dep, sig_forall_dec, sig_not_dec |
| `C124_message_learned_often_enough_as_spam_is_classified_as_spam_refuted` | classic, functional_extensionality_dep, sig_forall_dec, sig_not_dec |
| `C124_message_of_words_in_all_messages_of_the_other_side_is_never_recognised` | classic, functional_extensionality_dep, sig_forall_dec, sig_not_dec |
| `C124_message_with_a_word_new_to_the_other_side_is_recognised_in_the_end` | classic, functional_extensionality_dep, sig_forall_dec, sig_not_dec |
| `C126_operations_beside_other_processes_end_as_expected` | classic, functional_extensionality_dep, sig_forall_dec, sig_not_dec |
| `C127_load_shows_what_other_processes_trained_refuted` | classic, functional_extensionality_dep, sig_forall_dec, sig_not_dec |
| `C130_exchanging_labels_always_mirrors_the_double_score_refuted` | classic, functional_extensionality_dep, sig_forall_dec, sig_not_dec |
| `C130_exchanging_labels_mirrors_the_double_score` | classic, functional_extensionality_dep, sig_forall_dec, sig_not_dec |
| `C132_good_words_turn_any_message` | classic, functional_extensionality_dep, sig_forall_dec, sig_not_dec |
| `C132_spam_stays_spam_with_further_words_refuted` | classic, functional_extensionality_dep, sig_forall_dec, sig_not_dec |
| `C133_joined_messages_are_not_classified_the_other_way` | classic, functional_extensionality_dep, sig_forall_dec, sig_not_dec |
| `C133_joined_spam_is_spam_refuted` | classic, functional_extensionality_dep, sig_forall_dec, sig_not_dec |
| `C133_score_of_joined_messages` | classic, functional_extensionality_dep, sig_forall_dec, sig_not_dec |
| `C134_any_message_of_such_words` | classic, functional_extensionality_dep, sig_forall_dec, sig_not_dec |
| `C134_iterator_refuted` | classic, functional_extensionality_dep, sig_forall_dec, sig_not_dec |
| `C134_learning_a_message_once_with_bigrams_decides_it` | classic, functional_extensionality_dep, sig_forall_dec, sig_not_dec |
| `C134_learning_once_decides_with_bigrams` | classic, functional_extensionality_dep, sig_forall_dec, sig_not_dec |
| `C134_short_generators_are_not_learned` | classic, functional_extensionality_dep, sig_forall_dec, sig_not_dec |
| `C134_three_different_words_learned_once_refuted` | classic, functional_extensionality_dep, sig_forall_dec, sig_not_dec |
| `C134_three_learned_words_decide_with_bigrams` | classic, functional_extensionality_dep, sig_forall_dec, sig_not_dec |
| `C134_two_words_refuted` | classic, functional_extensionality_dep, sig_forall_dec, sig_not_dec |
| `C135_exactly_the_overdrawn_words_raise` | classic, functional_extensionality_dep, sig_forall_dec, sig_not_dec |
| `C135_learning_other_messages_repairs` | classic, functional_extensionality_dep, sig_forall_dec, sig_not_dec |
| `C144_the_part_depends_on_the_order_of_the_set` | classic, functional_extensionality_dep, sig_forall_dec, sig_not_dec |
| `C145_model_rounds_like_the_code` | classic, functional_extensionality_dep, sig_forall_dec, sig_not_dec |
| `C145_model_truncates_like_the_code` | classic, functional_extensionality_dep, sig_forall_dec, sig_not_dec |
| `C145_powers_of_two_differ_between_machines` | classic, functional_extensionality_dep, sig_forall_dec, sig_not_dec |
| `C145_rounded_logarithm_is_nearest` | classic, functional_extensionality_dep, sig_forall_dec, sig_not_dec |
| `C145_truncated_logarithm` | classic, functional_extensionality_dep, sig_forall_dec, sig_not_dec |
| `C145_truncated_logarithm_of_a_power_of_two_refuted` | classic, functional_extensionality_dep, sig_forall_dec, sig_not_dec |

Here `sig_forall_dec` and `sig_not_dec` are those of `ClassicalDedekindReals`,
`classic` that of `Classical_Prop` and `functional_extensionality_dep` that of
`FunctionalExtensionality`: the axioms of the standard library's real numbers. They
come with every theorem about real or floating-point numbers.

### Which functions of the code are modelled

Every definition of a model cites the lines it renders. Per function, the models that cite it:

| file | function | lines | models |
|---|---|---|---|
| cdb.py | `uint32_unpack` | 19-20 | `CdbModel` |
| cdb.py | `uint32_pack` | 23-24 | `CdbModel` |
| cdb.py | `cdb_hash` | 29-34 | `CdbModel` |
| cdb.py | `Cdb.__init__` | 39-53 | `CdbModel` |
| cdb.py | `Cdb.close` | 55-56 | `CdbModel` |
| cdb.py | `Cdb.__iter__` | 58-70 | `CdbModel` |
| cdb.py | `Cdb.iteritems` | 72-73 | `CdbModel` |
| cdb.py | `Cdb.iterkeys` | 75-76 | `CdbModel` |
| cdb.py | `Cdb.itervalues` | 78-79 | `CdbModel` |
| cdb.py | `Cdb.items` | 81-85 | `CdbModel` |
| cdb.py | `Cdb.keys` | 87-91 | `CdbModel` |
| cdb.py | `Cdb.values` | 93-97 | `CdbModel` |
| cdb.py | `Cdb.findstart` | 99-100 | `CdbModel` |
| cdb.py | `Cdb.read` | 102-104 | `CdbModel` |
| cdb.py | `Cdb.match` | 106-110 | `CdbModel` |
| cdb.py | `Cdb.findnext` | 112-144 | `CdbModel` |
| cdb.py | `Cdb.__getitem__` | 146-148 | `CdbModel` |
| cdb.py | `Cdb.get` | 150-155 | `CdbModel` |
| cdb.py | `cdb_make` | 166-200 | `CdbModel`, `CdbWriteModel` |
| classifiers/basic.py | `chi2Q` | 109-130 | `ClassifierModel`, `NumModel`, `RealModel` |
| classifiers/basic.py | `WordInfo.__init__` | 153-154 | `CdbClassModel`, `ClassifierModel` |
| classifiers/basic.py | `WordInfo.__repr__` | 156-157 | `ClassifierModel` |
| classifiers/basic.py | `WordInfo.__getstate__` | 159-160 | `ClassifierModel` |
| classifiers/basic.py | `WordInfo.__setstate__` | 162-163 | `ClassifierModel`, `ShelveModel` |
| classifiers/basic.py | `Classifier.__init__` | 180-188 | `CdbClassModel`, `ClassifierModel`, `ShareModel`, `ShelveModel` |
| classifiers/basic.py | `Classifier.__getstate__` | 190-191 | `PickleModel` |
| classifiers/basic.py | `Classifier.__setstate__` | 193-197 | `ClassifierModel`, `PickleModel` |
| classifiers/basic.py | `Classifier.spamprob` | 212-278 | `ClassifierModel`, `EntryModel`, `NumModel`, `RealModel`, `ShareModel`, `TreeModel` |
| classifiers/basic.py | `Classifier.learn_spam` | 280-282 | `ClassifierModel`, `EntryModel`, `ShareModel` |
| classifiers/basic.py | `Classifier.learn_ham` | 284-286 | `ClassifierModel`, `EntryModel`, `ShareModel` |
| classifiers/basic.py | `Classifier.unlearn_spam` | 288-290 | `ClassifierModel`, `EntryModel`, `ShareModel` |
| classifiers/basic.py | `Classifier.unlearn_ham` | 292-294 | `ClassifierModel`, `EntryModel`, `ShareModel` |
| classifiers/basic.py | `Classifier.learn` | 296-308 | `ClassifierModel`, `RaiseModel`, `ShareModel` |
| classifiers/basic.py | `Classifier.unlearn` | 310-321 | `ClassifierModel`, `RaiseModel`, `ShareModel` |
| classifiers/basic.py | `Classifier._enhance_wordstream` | 323-350 | `ClassifierModel`, `RaiseModel` |
| classifiers/basic.py | `Classifier.probability` | 352-415 | `ClassifierModel`, `NumModel`, `RealModel` |
| classifiers/basic.py | `Classifier._add_msg` | 440-459 | `ClassifierModel`, `RaiseModel` |
| classifiers/basic.py | `Classifier._remove_msg` | 461-486 | `ClassifierModel`, `RaiseModel` |
| classifiers/basic.py | `Classifier._post_training` | 488-494 | `ClassifierModel` |
| classifiers/basic.py | `Classifier._getclues` | 496-577 | `ClassifierModel`, `NumModel`, `RealModel`, `TreeModel` |
| classifiers/basic.py | `Classifier._worddistanceget` | 579-586 | `ClassifierModel`, `NumModel` |
| classifiers/basic.py | `Classifier._wordinfoget` | 588-589 | `ClassifierModel` |
| classifiers/basic.py | `Classifier._wordinfoset` | 591-592 | `ClassifierModel` |
| classifiers/basic.py | `Classifier._wordinfodel` | 594-595 | `ClassifierModel` |
| classifiers/basic.py | `Classifier._wordinfokeys` | 597-598 | `ClassifierModel` |
| classifiers/slurping.py | `is_unsure` | 105-110 | `MessageModel` |
| classifiers/slurping.py | `base_url` | 113-128 | `SlurpModel` |
| classifiers/slurping.py | `SlurpingURLStripper.analyze` | 135-141 | `StripModel` |
| classifiers/slurping.py | `SlurpingURLStripper.tokenize` | 143-159 | `StripModel` |
| classifiers/slurping.py | `SlurpingClassifier.spamprob` | 164-185 | `SlurpModel` |
| classifiers/slurping.py | `SlurpingClassifier.learn` | 187-191 | `SlurpModel` |
| classifiers/slurping.py | `SlurpingClassifier.unlearn` | 193-197 | `SlurpModel` |
| classifiers/slurping.py | `SlurpingClassifier._generate_slurp` | 199-213 | `SlurpModel` |
| classifiers/slurping.py | `SlurpingClassifier.setup` | 215-255 | `FetchModel`, `SlurpModel` |
| classifiers/slurping.py | `SlurpingClassifier._save_caches` | 257-264 | not modelled: never reached, setup raises before (C64) |
| classifiers/slurping.py | `SlurpingClassifier.slurp` | 266-360 | `FetchModel` |
| classifiers/storage.py | `StoredClassifierBase.load` | 120-121 | abstract |
| classifiers/storage.py | `StoredClassifierBase.store` | 123-124 | abstract |
| classifiers/storage.py | `StoredClassifierBase.close` | 126-127 | abstract |
| classifiers/storage.py | `PickleClassifier.__init__` | 138-141 | `PickleModel` |
| classifiers/storage.py | `PickleClassifier.load` | 143-172 | `PickleModel` |
| classifiers/storage.py | `PickleClassifier.store` | 174-177 | `PickleModel` |
| classifiers/storage.py | `ShelveClassifier.__init__` | 190-195 | `ShareModel`, `ShelveModel` |
| classifiers/storage.py | `ShelveClassifier.close` | 197-199 | `ShareModel`, `ShelveModel` |
| classifiers/storage.py | `ShelveClassifier.load` | 201-225 | `ShareModel`, `ShelveModel` |
| classifiers/storage.py | `ShelveClassifier.store` | 227-254 | `ShareModel`, `ShelveModel` |
| classifiers/storage.py | `ShelveClassifier._write_state_key` | 256-257 | `ShareModel`, `ShelveModel` |
| classifiers/storage.py | `ShelveClassifier._post_training` | 259-263 | `ShareModel`, `ShelveModel` |
| classifiers/storage.py | `ShelveClassifier._wordinfoget` | 265-281 | `ShareModel`, `ShelveModel` |
| classifiers/storage.py | `ShelveClassifier._wordinfoset` | 283-318 | `ShareModel`, `ShelveModel` |
| classifiers/storage.py | `ShelveClassifier._wordinfodel` | 320-324 | `ShareModel`, `ShelveModel` |
| classifiers/storage.py | `ShelveClassifier._wordinfokeys` | 326-329 | `ShelveModel` |
| classifiers/storage.py | `CDBClassifier.__init__` | 593-597 | `CdbClassModel` |
| classifiers/storage.py | `CDBClassifier.load` | 623-640 | `CdbClassModel` |
| classifiers/storage.py | `CDBClassifier.store` | 642-646 | `CdbClassModel` |
| corpora/base.py | `Corpus.__init__` | 139-140 | `CacheModel`, `CorpusModel`, `ObserveModel` |
| corpora/base.py | `Corpus.add_message` | 150-161 | `CacheModel`, `CopyModel`, `CorpusModel`, `LifeModel`, `ObserveModel` |
| corpora/base.py | `Corpus.remove_message` | 163-175 | `CorpusModel`, `LifeModel`, `ObserveModel`, `ReadModel` |
| corpora/base.py | `Corpus.get` | 217-221 | `ReadModel` |
| corpora/base.py | `Corpus.__getitem__` | 223-229 | `ReadModel` |
| corpora/base.py | `Corpus.keys` | 231-232 | `ReadModel` |
| corpora/base.py | `Corpus.values` | 234-235 | `ReadModel` |
| corpora/base.py | `Corpus.items` | 237-238 | `ReadModel` |
| corpora/base.py | `Corpus.__contains__` | 240-241 | `ReadModel` |
| corpora/base.py | `Corpus.__len__` | 243-244 | `ReadModel` |
| corpora/base.py | `Corpus.__iter__` | 246-247 | `ReadModel` |
| corpora/base.py | `Corpus.__str__` | 249-250 | not modelled: raises NotImplementedError |
| corpora/base.py | `Corpus.__repr__` | 252-253 | not modelled: raises NotImplementedError |
| corpora/caches.py | `Cache.__len__` | 28-29 | abstract |
| corpora/caches.py | `Cache.__iter__` | 31-32 | abstract |
| corpora/caches.py | `Cache.__getitem__` | 34-35 | abstract |
| corpora/caches.py | `Cache.keys` | 37-38 | abstract |
| corpora/caches.py | `Cache.values` | 40-41 | abstract |
| corpora/caches.py | `Cache.put` | 43-44 | abstract |
| corpora/caches.py | `Cache.get` | 46-47 | abstract |
| corpora/caches.py | `Cache.pop` | 49-50 | abstract |
| corpora/caches.py | `NaiveCache.__init__` | 65-71 | `CacheModel`, `ObserveModel` |
| corpora/caches.py | `NaiveCache.__len__` | 73-74 | `CacheModel`, `ObserveModel` |
| corpora/caches.py | `NaiveCache.__iter__` | 76-77 | `CacheModel`, `ObserveModel`, `ReadModel` |
| corpora/caches.py | `NaiveCache.__getitem__` | 79-80 | `CacheModel`, `ObserveModel` |
| corpora/caches.py | `NaiveCache.keys` | 82-83 | `CacheModel`, `ObserveModel`, `ReadModel` |
| corpora/caches.py | `NaiveCache.values` | 85-86 | `CacheModel`, `ObserveModel`, `ReadModel` |
| corpora/caches.py | `NaiveCache.put` | 88-97 | `CacheModel`, `CopyModel`, `ObserveModel` |
| corpora/caches.py | `NaiveCache.get` | 99-100 | `CacheModel`, `ObserveModel` |
| corpora/caches.py | `NaiveCache.pop` | 102-111 | `CacheModel`, `CopyModel`, `ObserveModel` |
| corpora/caches.py | `FileCache.__init__` | 118-125 | `CacheModel` |
| corpora/caches.py | `FileCache._is_message` | 127-129 | `CacheModel` |
| corpora/caches.py | `FileCache._message_from_path` | 131-132 | `CacheModel`, `ReadModel` |
| corpora/caches.py | `FileCache.__len__` | 134-135 | `CacheModel` |
| corpora/caches.py | `FileCache.__iter__` | 137-138 | `CacheModel`, `ReadModel` |
| corpora/caches.py | `FileCache.__getitem__` | 140-145 | `CacheModel` |
| corpora/caches.py | `FileCache.keys` | 147-148 | `CacheModel`, `ReadModel` |
| corpora/caches.py | `FileCache.values` | 150-152 | `CacheModel`, `ReadModel` |
| corpora/caches.py | `FileCache.put` | 154-162 | `CacheModel`, `CopyModel` |
| corpora/caches.py | `FileCache.get` | 164-168 | `CacheModel` |
| corpora/caches.py | `FileCache.pop` | 170-178 | `CacheModel`, `CopyModel` |
| corpora/filesystem.py | `FileCorpus.__init__` | 63-65 | `CorpusModel`, `SlurpModel` |
| corpora/filesystem.py | `FileCorpus.__repr__` | 67-73 | not modelled: raises AttributeError (self.directory is never set) |
| corpora/filesystem.py | `ExpiryFileCorpus.__init__` | 79-83 | `CorpusModel`, `SlurpModel` |
| corpora/filesystem.py | `ExpiryFileCorpus.remove_expired_messages` | 85-104 | `CacheModel`, `CorpusModel` |
| dnsutils.py | `timed` | 10-21 | `NetModel` |
| dnsutils.py | `timed.timed_f` | 11-20 | `NetModel` |
| dnsutils.py | `memoize.__init__` | 28-29 | `NetModel` |
| dnsutils.py | `memoize.__call__` | 31-32 | `NetModel` |
| dnsutils.py | `memoize.__missing__` | 34-37 | `NetModel` |
| dnsutils.py | `reverse_dns_lookup` | 41-46 | `NetModel` |
| dnsutils.py | `dns_lookup` | 50-52 | `NetModel` |
| iputils.py | `gen_dotted_quad_clues` | 17-18 | `NetModel` |
| iputils.py | `subnets` | 21-31 | `NetModel` |
| message.py | `from_path` | 149-151 | `CacheModel`, `ReadModel` |
| message.py | `from_bytes` | 154-158 | `CacheModel`, `MessageModel`, `ReadModel` |
| message.py | `from_string` | 160-164 | `MessageModel` |
| message.py | `force_crlf` | 167-169 | `MessageModel` |
| message.py | `Message.__init__` | 175-188 | `CopyModel`, `MessageModel`, `ObserveModel` |
| message.py | `Message.set_id` | 247-257 | `MessageModel` |
| message.py | `Message.id` | 260-261 | `ObserveModel` |
| message.py | `Message.as_string` | 269-284 | `CopyModel`, `OutModel` |
| message.py | `Message.classification` | 290-291 | `CacheModel` |
| message.py | `Message.set_classification` | 293-308 | `MessageModel` |
| message.py | `Message.remember_trained` | 310-312 | `CorpusModel`, `MessageModel`, `ObserveModel` |
| message.py | `Message.is_trained` | 315-316 | `ObserveModel` |
| message.py | `Message.__repr__` | 318-319 | `CopyModel` |
| message.py | `Message.__getstate__` | 321-322 | `CopyModel`, `MessageModel` |
| message.py | `Message.__setstate__` | 324-325 | `CopyModel`, `MessageModel` |
| message.py | `Message.set_id_from_payload` | 337-342 | `MessageModel` |
| message.py | `Message.add_sb_headers` | 344-457 | `CopyModel`, `LevelModel`, `MessageModel` |
| message.py | `Message.add_notations` | 459-494 | `MessageModel` |
| message.py | `Message.remove_notations` | 496-531 | `MessageModel` |
| message.py | `Message.current_sb_headers` | 533-550 | `MessageModel` |
| message.py | `Message.remove_sb_headers` | 552-561 | `MessageModel` |
| message.py | `insert_exception_header` | 567-598 | `MessageModel` |
| safepickle.py | `pickle_read` | 20-24 | `PickleModel` |
| safepickle.py | `pickle_write` | 27-34 | `PickleModel` |
| strippers.py | `log2` | 93-94 | `LogModel` |
| strippers.py | `crack_filename` | 97-107 | `StripModel` |
| strippers.py | `crack_content_xyz` | 110-146 | `HeadModel`, `TreeModel` |
| strippers.py | `Stripper.__init__` | 158-169 | `StripModel` |
| strippers.py | `Stripper.analyze` | 177-197 | `StripModel` |
| strippers.py | `Stripper.tokenize` | 199-201 | `StripModel` |
| strippers.py | `UUencodeStripper.__init__` | 212-214 | `StripModel` |
| strippers.py | `UUencodeStripper.tokenize` | 216-219 | `StripModel` |
| strippers.py | `URLStripper.__init__` | 223-229 | `OptModel`, `StripModel` |
| strippers.py | `URLStripper.tokenize` | 231-306 | `OptModel`, `StripModel` |
| tokenizer.py | `convert_to_bytes` | 776-784 | `TokenModel` |
| tokenizer.py | `convert_to_bytes.converted_f` | 781-783 | `TokenModel` |
| tokenizer.py | `textparts` | 792-795 | `TreeModel` |
| tokenizer.py | `octetparts` | 798-801 | `TreeModel` |
| tokenizer.py | `imageparts` | 804-809 | `TreeModel` |
| tokenizer.py | `tokenize_word` | 863-893 | `TokenModel` |
| tokenizer.py | `try_to_repair_damaged_base64` | 1015-1034 | `TokenModel` |
| tokenizer.py | `breakdown_host` | 1037-1040 | `NetModel` |
| tokenizer.py | `breakdown_ipaddr` | 1043-1046 | `NetModel` |
| tokenizer.py | `log2` | 1049-1050 | `HeadModel`, `LogModel` |
| tokenizer.py | `find_html_virus_clues` | 1085-1087 | `TokenModel` |
| tokenizer.py | `numeric_entity_replacer` | 1093-1097 | `TokenModel` |
| tokenizer.py | `Tokenizer.__init__` | 1124-1125 | `OptModel` |
| tokenizer.py | `Tokenizer.__call__` | 1127-1133 | `CopyModel`, `HeadModel`, `OptModel`, `TokenModel`, `TreeModel` |
| tokenizer.py | `Tokenizer.tokenize_headers` | 1135-1423 | `HeadModel`, `LogModel`, `NetModel`, `OptModel`, `TreeModel` |
| tokenizer.py | `Tokenizer.tokenize_text` | 1425-1450 | `LogModel`, `OptModel`, `TokenModel` |
| tokenizer.py | `Tokenizer.tokenize_body` | 1452-1559 | `LogModel`, `OptModel`, `TokenModel`, `TreeModel` |
| tokenizer.py | `mine_nntp` | 1573-1583 | `NetModel` |
| tokenizer.py | `top_two` | 1586-1595 | `NetModel` |
| tokenizer.py | `clues_from_ipaddress` | 1598-1606 | `NetModel` |
| tokenizer.py | `clues_from_domainname` | 1609-1621 | `NetModel` |
| trainers.py | `Trainer.__init__` | 46-51 | `CorpusModel`, `LifeModel`, `ObserveModel` |
| trainers.py | `Trainer.train` | 53-63 | `CorpusModel`, `LifeModel`, `ObserveModel` |
| trainers.py | `Trainer.untrain` | 65-78 | `CacheModel`, `ObserveModel` |
| trainers.py | `SpamTrainer.__init__` | 98-99 | `CorpusModel`, `ObserveModel` |
| trainers.py | `HamTrainer.__init__` | 109-110 | `CorpusModel`, `ObserveModel` |
