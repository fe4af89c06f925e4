# Design of the machine-checked model of pkm

The model is written in Rocq/Coq 8.16 under `rocq/theories`.  Every area of the
python code has

* `XModel.v` – a function-by-function transcription into total Gallina functions.
  Each definition cites `file:lines` in `/repo`; anything simplified is said there.
* `XSpec.v` (where useful) – the small independent specification a property is stated with.
* `XProofs.v`, `XFacts.v` – lemmas and proofs.
* `XProps.v` – the property theorems, followed by `Print Assumptions`, together with the
  `Example`s showing that the hypotheses are met by a concrete non-trivial case.

`MANIFEST.json` names the theorems per property, `properties.jsonl` states the properties,
`seeded/LOG.jsonl` records which wrong programs the theorems were tried on.

## Conventions

* Python `str` is a list of 8-bit characters.  Claims are about texts in that alphabet;
  `lower`, `isdigit`, `isalnum`, `isspace` follow the ASCII behaviour of python.
* Python `int` that can only be a natural number is `N` (printing/parsing) or `nat`
  (indices, lengths); other ints are `Z`.
* Exceptions are values: `res A := Ok a | Err e`, the error constructor naming the python exception class.
* `dict` is an association list in insertion order, `set` a list whose order is irrelevant to the statement.
* Mutable objects shared by several references are modelled with explicit stores, or by returning the
  changed operand, when the property is about aliasing (C11, C17, C30, C55, C111, C113).
* Concurrency: a small-step transition relation whose atomic steps are the lock-protected
  regions of the code; theorems quantify over all runs.
* File systems are finite maps from absolute paths (component lists) to file contents or directories.
* Crash points: operations are lists of primitive effects; a crash is a prefix of that list.
* Loops of the code that need not end run with fuel; theorems either say how much suffices or hold for any.

A property that is false of the code is answered by a theorem `…_refuted` holding a concrete witness;
the largest natural fragment on which it holds is then proved (suffix `_partial`,
with the missing part named in the note).  Such properties have the status "partial" and a note
that starts with REFUTED.  Properties C75–C105 restate the parts of earlier ones that hold without restriction.

## Properties

### C01 Version comparison is a strict total order

For any versions a, b, c: never a < a; a < b and b < c imply a < c; and exactly one of a < b, a == b, b < a holds. So sorting a list of versions has one answer up to equal versions.

*Status:* partial. The full claim is false of the code: REFUTED by C01_total_refuted (1.0+1 vs 1.0+2) and C01_url_refuted. Irreflexivity and transitivity hold for all versions; incomparable pairs are characterised exactly; trichotomy proved outside the clashes. 

*Model and proof:* `_less` and `__eq__` of the three version classes are transcribed; a version is an inductive type. Proved by case analysis on the lexicographic comparison of the components; the failing cases are witnesses found by evaluation. Files: `VersionProps.v`.

*Theorems:* `C01_irreflexive`, `C01_transitive`, `C01_incomparable_iff`, `C01_trichotomy_partial`, `C01_total_refuted`, `C01_url_refuted`.

### C02 Equal versions are interchangeable (equivalence, congruence, hash contract)

== on versions is an equivalence relation; equal versions compare identically against every third version; and equal versions have equal hashes, so sets and dicts keyed by versions never hold two equal versions.

*Status:* partial. Equivalence and congruence proved (congruence except url versions). Hash contract REFUTED for explicit epoch 0 and url versions; C02_hash_iff says exactly when it holds for standard versions. 

*Model and proof:* `equals_to`, `standartize` and the tuple that `__hash__` hashes. Equality is shown to be equality of the standardised parts, hence an equivalence. Files: `VersionProps.v`.

*Theorems:* `C02_equality_meaning`, `C02_equivalence`, `C02_congruence_partial`, `C02_hash_iff`, `C02_hash_refuted`, `C02_url_hash_refuted`.

### C03 Version order agrees with PEP 440

For standard versions, a < b exactly when PEP 440 orders a before b (dev < pre < final < post within one release, local labels after, numeric local segments compared as numbers).

*Status:* partial. REFUTED in general (three witnesses). Agreement with an independent PEP 440 order proved when dev releases are not combined with pre/post parts and numeric label segments do not clash, and unconditionally when epoch/release differ. 

*Model and proof:* An independent PEP 440 sort key is written down in the specification file; agreement by comparison of the components. Files: `VersionProps.v`.

*Theorems:* `C03_pep440_partial`, `C03_release_decides`, `C03_post_dev_refuted`, `C03_pre_dev_refuted`, `C03_local_refuted`.

### C04 Printing then parsing a version gives the same version back

For every well-formed standard version v (what the parser can produce), parsing str(v) yields a version with exactly the same fields as v.

*Status:* proved. 

*Model and proof:* `__str__` and `read_version` over the position-based `SimpleParser`; the round trip is symbolic execution of the parser on the printed text. Files: `VersionProps.v`.

*Theorems:* `C04_roundtrip`, `C04_roundtrip_in_context`.

### C05 Version parsing is total and uses the whole text

Parsing any text as a version returns a version (falling back to a named version) and never discards part of the text: two texts that name the same standard version differ only by spelling (case, separators, zero padding, v prefix, quotes).

*Status:* partial. Totality proved. 'Never discards text' REFUTED. 

*Model and proof:* The parser is a total function with errors as values; every error of `read_version` is shown to be caught. Files: `VersionProps.v`.

*Theorems:* `C05_total`, `C05_case_partial`, `C05_pre_spelling_partial`, `C05_post_spelling_partial`, `C05_dev_spelling_partial`, `C05_separator_refuted`, `C05_discards_text_refuted`, `C05_alpha_refuted`.

### C06 Bumping a version moves it strictly forward

For every three-part version v and every supported particle (major, minor, patch, a, b, rc), the bumped version is strictly greater than v, and bumping with anything else is rejected.

*Status:* partial. REFUTED for pre-release particles on final versions (always goes backwards, C06_backward) and for unknown particles (accepted). Strictly forward in all other cases. 

*Model and proof:* `bump` is transcribed branch by branch; strict increase by cases on the bumped particle. Files: `VersionProps.v`.

*Theorems:* `C06_forward_partial`, `C06_backward`, `C06_prerelease_refuted`, `C06_unknown_particle_refuted`.

### C07 Specifier intersection allows exactly the common versions

For specifiers a and b, a.intersect_with(b) allows a version exactly when both a and b allow it; in particular the order of the operands does not matter.

*Status:* partial. REFUTED in general: intersection with '!=' lists loses exclusions against unions, post-release bounds leak, named versions disappear. Proved: on specifiers without '!=' (incl. unions of separated ranges/'==') and on specifiers without unions, for every final/pre/dev version, intersect_with does not raise, stays in the fragment and allows exactly the common versions. 

*Model and proof:* All specifier classes are one inductive type; operations return their result together with the mutated operand, so aliasing of `VersionsUnion` is visible. The meaning is `allows_version`. Interval reasoning over the ordered fragment of versions. Files: `SpecifierProps.v`.

*Theorems:* `C07_intersection_partial`, `C07_exact_partial`, `C07_named_excluded_partial`, `C07_local_refuted`, `C07_local_exclusion_refuted`, `C07_post_refuted`, `C07_blacklist_refuted`, `C07_named_refuted`.

### C08 Specifier union allows exactly the versions either side allows

For specifiers a and b, a.union_with(b) allows a version exactly when a or b allows it.

*Status:* partial. REFUTED in general: uniting a range with one nested in it, a range with one segment of a union, or two exclusion lists loses versions. Proved for staggered ranges, '==', '!=', everything/nothing and for unions of ranges that keep their distance. 

*Model and proof:* All specifier classes are one inductive type; operations return their result together with the mutated operand, so aliasing of `VersionsUnion` is visible. The meaning is `allows_version`. Interval reasoning over the ordered fragment of versions. Files: `SpecifierProps.v`.

*Theorems:* `C08_union_partial`, `C08_same_start_partial`, `C08_apart_partial`, `C08_nested_refuted`, `C08_segment_refuted`, `C08_exclusion_refuted`.

### C09 Specifier inverse is the complement

a.inverse() allows a version exactly when a does not; hence a.inverse().inverse() is equivalent to a, and difference is set difference.

*Status:* partial. REFUTED for post-releases (allowed neither by '>=1' nor by its inverse). Proved for everything/nothing, ranges, unions of separated ranges, '==' and '!=' on final/pre/dev versions; difference follows. 

*Model and proof:* All specifier classes are one inductive type; operations return their result together with the mutated operand, so aliasing of `VersionsUnion` is visible. The meaning is `allows_version`. Interval reasoning over the ordered fragment of versions. Files: `SpecifierProps.v`.

*Theorems:* `C09_inverse_partial`, `C09_match`, `C09_difference_partial`, `C09_post_refuted`.

### C10 allows_all / allows_any decide inclusion and overlap

a.allows_all(b) is true exactly when every version allowed by b is allowed by a, and a.allows_any(b) exactly when some version is allowed by both.

*Status:* partial. REFUTED: allows_all yes for '>=1' over '>=1.post1'; allows_all(everything, nothing) is no. Proved: a yes of allows_all / a no of allows_any is right on both fragments; allows_all recognises every included range. 

*Model and proof:* All specifier classes are one inductive type; operations return their result together with the mutated operand, so aliasing of `VersionsUnion` is visible. The meaning is `allows_version`. Interval reasoning over the ordered fragment of versions. Files: `SpecifierProps.v`.

*Theorems:* `C10_all_sound_partial`, `C10_any_sound_partial`, `C10_ranges_included`, `C10_post_refuted`, `C10_empty_refuted`.

### C11 Specifier operations do not change their operands

union_with, intersect_with, inverse and difference_from leave both operands allowing exactly the versions they allowed before the call.

*Status:* partial. REFUTED: union_with of two unions empties the list of its argument object. 

*Model and proof:* All specifier classes are one inductive type; operations return their result together with the mutated operand, so aliasing of `VersionsUnion` is visible. The meaning is `allows_version`. Interval reasoning over the ordered fragment of versions. Files: `SpecifierProps.v`.

*Theorems:* `C11_argument_refuted`.

### C12 Specifier operations never crash

Every sequence of union, intersection, inverse and difference applied to parsed specifiers returns a specifier; none of them raises.

*Status:* partial. REFUTED: parsing '!=2.*, !=4.*, !=6' raises AssertionError, a union raises KeyError. Proved: conjunctions of any number of specifiers of either fragment never raise and mean the conjunction. 

*Model and proof:* All specifier classes are one inductive type; operations return their result together with the mutated operand, so aliasing of `VersionsUnion` is visible. The meaning is `allows_version`. Interval reasoning over the ordered fragment of versions. Files: `SpecifierProps.v`.

*Theorems:* `C12_conjunction_partial`, `C12_parse_refuted`, `C12_union_refuted`.

### C13 A parsed requirement means what it says

Parsing 'op v' gives a specifier allowing exactly: >= v, > v, <= v, < v, == v, != v per the version order; == v.* and ~= v give the half-open ranges; a comma separated list is the conjunction of its clauses.

*Status:* partial. Proved for every list of >=,>,<=,<,==,!=,~=,==*,!=* clauses over versions without label and explicit epoch 0 (no mix of '!=v' and '!=v.*'), judged on final/pre/dev versions. REFUTED in general: text after a clause is dropped silently. 

*Model and proof:* `read_specifier` composed with the semantics of C07, against the clauses of PEP 440. Files: `SpecifierProps.v`.

*Theorems:* `C13_clauses_partial`, `C13_ignored_tail_refuted`.

### C14 Printing then parsing a specifier keeps its meaning

For each specifier produced by the parser, parsing its printed form gives an equal specifier.

*Status:* partial. REFUTED for unions ('<1.2; >=1.3' reads as '<1.2') and for ranges ending in a pre-release that print as '~='. Proved for everything, '==', '!=' and every other range. 

*Model and proof:* `__str__` of the specifiers; symbolic execution of the parser on the printed text. Files: `SpecifierProps.v`.

*Theorems:* `C14_roundtrip_partial`, `C14_union_refuted`, `C14_compat_refuted`.

### C15 A resolution is a real solution

If dependency resolution returns an assignment then it selects exactly one version per selected package, contains the root, every selected version is one the repository listed, and every dependency of every selected package is satisfied by the selected version of that dependency.

*Status:* partial. Proved for every problem, pick order and number of rounds, given specifier operations that compute the right sets, one requirement per package and no equal requirements of two versions; REFUTED for repeated requirements, equal requirements and (with pkm's specifiers) post releases. 

*Model and proof:* The solver with an abstract problem (`o_*`: versions, dependencies and set operations), partial solution, backtracking and conflict resolution as in the code, run with fuel. Soundness by an invariant over the main loop; incompatibilities are shown to be consequences of the problem. For C18 the difference is replaced by an error: an invariant says that every incompatibility is met by the choice and that the choice follows every derived constraint; runs with and without the error are compared step by step. Files: `PubgrubProps.v`.

*Theorems:* `C15_resolution_is_solution_partial`, `C15_required_twice_refuted`, `C15_shared_requirements_refuted`, `C15_post_release_refuted`.

### C16 Resolver version windows partition the available versions

The windows the resolver assigns to the available versions of a package cover every version number and each available version falls in its own window only.

*Status:* partial. Proved for final, pre- and development releases; REFUTED for post releases. 

*Model and proof:* The solver with an abstract problem (`o_*`: versions, dependencies and set operations), partial solution, backtracking and conflict resolution as in the code, run with fuel. Soundness by an invariant over the main loop; incompatibilities are shown to be consequences of the problem. For C18 the difference is replaced by an error: an invariant says that every incompatibility is met by the choice and that the choice follows every derived constraint; runs with and without the error are compared step by step. Files: `PubgrubProps.v`.

*Theorems:* `C16_windows_partition_partial`, `C16_post_release_refuted`.

### C17 Backtracking restores an earlier search state

After backtracking to a level, the partial solution is exactly the one obtained by replaying the assignments made at or below that level: no assignment above the level survives and none below is lost.

*Status:* proved. For every history of assignments, requirements and backtracking in which no package is decided twice and the root is decided first, as the solver does. 

*Model and proof:* The solver with an abstract problem (`o_*`: versions, dependencies and set operations), partial solution, backtracking and conflict resolution as in the code, run with fuel. Soundness by an invariant over the main loop; incompatibilities are shown to be consequences of the problem. For C18 the difference is replaced by an error: an invariant says that every incompatibility is met by the choice and that the choice follows every derived constraint; runs with and without the error are compared step by step. Files: `PubgrubProps.v`.

*Theorems:* `C17_backtrack_replays`, `C17_backtrack_exact`.

### C18 'No solution' is only reported when there is none

If resolution fails with an unsatisfiable error then no assignment of versions satisfies the root requirements; every derived incompatibility is a logical consequence of the dependency facts.

*Status:* partial. REFUTED, with idealised specifiers and with pkm's own, even if every package has a version that fits (the simplest case: a, b, d are wanted, a 2 wants b >= 2, a 1 wants nothing, d wants b < 4, b is there in version 1). Proved: if a choice of versions for all reachable packages meets all requirements, a wrong report only comes from the difference that conflict resolution computes from the accumulated constraint (pubgrub.py 664-671); without this step the report is never wrong. Missing: problems in which only some packages have a version that fits. 

*Model and proof:* The solver with an abstract problem (`o_*`: versions, dependencies and set operations), partial solution, backtracking and conflict resolution as in the code, run with fuel. Soundness by an invariant over the main loop; incompatibilities are shown to be consequences of the problem. For C18 the difference is replaced by an error: an invariant says that every incompatibility is met by the choice and that the choice follows every derived constraint; runs with and without the error are compared step by step. Files: `PubgrubNoProps.v`, `PubgrubProps.v`.

*Theorems:* `C18_no_solution_refuted`, `C18_no_solution_real_refuted`, `C18_complete_refuted`, `C18_complete_real_refuted`, `C18_difference_partial`.

### C19 Updating the lock for one environment leaves other environments alone

After the lock is updated from an environment, the entries of every other environment are exactly as before, the entries of this environment are exactly its installed packages, and updating twice is the same as once.

*Status:* proved. For every lock reachable by init/update/unlock/save+load. 

*Model and proof:* The lock as a list of entries with environment hashes; filter and permutation arguments. Files: `LockProps.v`.

*Theorems:* `C19_others_untouched`, `C19_own_entries`, `C19_entries`, `C19_idempotent`, `C19_save_load`.

### C20 Unlocking removes exactly the named packages

Unlocking a set of names removes every lock entry of these packages (in every environment) and nothing else.

*Status:* proved. For every reachable lock. 

*Model and proof:* The lock as a list of entries with environment hashes; filter and permutation arguments. Files: `LockProps.v`.

*Theorems:* `C20_unlock`, `C20_unlocked_not_preferred`.

### C21 Lock preference only reorders candidates

The lock-prioritising repository returns the same candidates as the underlying one, locked versions first and otherwise in the same order.

*Status:* partial. Proved with version equality as used by python sets (equal and same hash) and at most one version per package and environment, which updates preserve. REFUTED for plain version equality: a lock on '0!1' does not prefer candidate '1'. 

*Model and proof:* The lock as a list of entries with environment hashes; filter and permutation arguments. Files: `LockProps.v`.

*Theorems:* `C21_reorders`, `C21_repository`, `C21_one_per_env`, `C21_epoch_refuted`.

### C22 A failed installation step leaves the file system as it was

If a copy transaction fails at any point, after rollback every path has exactly the content and existence it had when the transaction started.

*Status:* partial. REFUTED in general (five witnesses); proved for all initial file systems, all failure points and all mkdir/copy/rm sequences that do not replace their own results, with an inner-first iteration order of the set; copy_tree sequences are shown to qualify. 

*Model and proof:* The transaction on a finite-map file system with an oracle that can fail any primitive effect; induction over the list of operations. Files: `FilesProps.v`.

*Theorems:* `C22_rollback_partial`, `C22_copy_tree_rollback_partial`, `C22_copy_twice_refuted`, `C22_set_order_refuted`, `C22_partial_write_refuted`, `C22_touch_refuted`, `C22_custom_copy_refuted`.

### C23 A committed copy transaction reports exactly the files it created

After a successful transaction the list of copied files contains exactly the files written by it, each holding the source content, and files not mentioned are untouched.

*Status:* partial. REFUTED in general (removed and touched files are reported); proved for mkdir/copy/rm sequences that do not replace their own results. 

*Model and proof:* The transaction on a finite-map file system with an oracle that can fail any primitive effect; induction over the list of operations. Files: `FilesProps.v`.

*Theorems:* `C23_copied_files_partial`, `C23_removed_file_refuted`, `C23_touch_refuted`, `C23_file_copy_ignored_below_refuted`.

### C24 Relative path computation reaches its destination

path_to(a, b) terminates for all paths and resolving the returned path from a leads to b.

*Status:* partial. REFUTED for the root directory as destination (loops forever); proved for every other destination. 

*Model and proof:* Paths are lists of components; induction over the common prefix. Files: `FilesProps.v`.

*Theorems:* `C24_path_to`, `C24_root_refuted`.

### C25 Containment check is component-wise

is_relative_to(p, q) holds exactly when q's components are a prefix of p's components.

*Status:* partial. REFUTED (siblings sharing a name prefix); contained paths are always recognised, and the exact relation decided is characterised. 

*Model and proof:* Paths are lists of components; induction over the common prefix. Files: `FilesProps.v`.

*Theorems:* `C25_contained_is_relative_partial`, `C25_exact_partial`, `C25_sibling_refuted`.

### C26 At most one download of a resource is in flight, and nobody waits forever

Under every interleaving of concurrent requests for a url, at most one request performs the download at a time, and every request returns or raises once the performing one finishes.

*Status:* partial. One download at a time proved for every schedule of any number of callers; every caller ends unless a download is interrupted by an exception that is not an Exception, for which it is REFUTED. 

*Model and proof:* `fetch_resource` is a transition system of any number of callers; `_request` is a loop over an adversarial list of answers of servers. Files: `HttpProps.v`.

*Theorems:* `C26_one_download_at_a_time`, `C26_nobody_waits_forever_partial`, `C26_waits_for_somebody_partial`, `C26_waiter_after_interrupt_refuted`.

### C27 Cache directives are honoured on every request

A request that asks for an update (or for no caching) contacts the server even if the same url was requested before in this process.

*Status:* partial. REFUTED: a request answered from the cache leaves its in-progress entry behind and no later request contacts the server; proved while no request is answered from the cache. 

*Model and proof:* `fetch_resource` is a transition system of any number of callers; `_request` is a loop over an adversarial list of answers of servers. Files: `HttpProps.v`.

*Theorems:* `C27_refreshing_requests_ask_the_server_partial`, `C27_update_ignored_after_a_hit_refuted`, `C27_stale_entry_is_final`.

### C28 Redirects and retries are bounded, credentials stay home

One logical request performs a bounded number of connections, and authorization headers are never sent to a different host than the one the caller addressed.

*Status:* partial. Bound and termination proved for every server; REFUTED for credentials: an absolute redirect to another host receives the same headers. 

*Model and proof:* `fetch_resource` is a transition system of any number of callers; `_request` is a loop over an adversarial list of answers of servers. Files: `HttpProps.v`.

*Theorems:* `C28_contacts_bounded`, `C28_always_ends`, `C28_headers_stay_home_partial`, `C28_credentials_leave_refuted`.

### C29 The connection pool never over-fills or hands out one connection twice

The pool caches at most its configured number of connections, a connection is handed to at most one user at a time, and after close no connection is cached.

*Status:* partial. Limit and closing proved for all operation sequences; exclusive use when each proxy is closed once, REFUTED for two threads closing the same proxy. 

*Model and proof:* Pool operations are functions on the state; invariant over all lists of operations. Files: `HttpProps.v`.

*Theorems:* `C29_exclusive_use_partial`, `C29_pooled_connections_open_and_distinct_partial`, `C29_limit`, `C29_closed_keeps_nothing`, `C29_racing_double_close_refuted`.

### C30 A promise is settled at most once and its listeners run exactly once

A promise changes state at most once; every listener registered before or after settling is called exactly once with the final state; await returns the settled value.

*Status:* partial. Proved for all interleavings of any number of threads, with callbacks that do not settle other promises themselves; awaiting REFUTED for exceptions whose truth value is False. 

*Model and proof:* A promise is a state machine whose steps are the lock regions of the code; theorems quantify over all interleavings. Files: `PromiseProps.v`.

*Theorems:* `C30_settled_once`, `C30_second_raises`, `C30_at_most_once`, `C30_sees_the_settled_state`, `C30_exactly_once`, `C30_value_was_given`, `C30_await_partial`, `C30_false_exception_refuted`.

### C31 Awaiting many promises

await_all returns only when all promises are settled; await_all_or_cancel cancels the remaining ones once one fails and reports the failure.

*Status:* partial. await_all proved; REFUTED for await_all_or_cancel: promises are awaited in list order, so a failure behind an unsettled promise is not noticed and nothing is cancelled; proved for the calls that end. 

*Model and proof:* A promise is a state machine whose steps are the lock regions of the code; theorems quantify over all interleavings. Files: `PromiseProps.v`.

*Theorems:* `C31_await_all`, `C31_await_all_failure`, `C31_cancel_partial`, `C31_cancel_success`, `C31_late_notice_refuted`, `C31_base_exception_refuted`.

### C32 The installation plan is the exact difference

Applying the planned operations to the installed set yields exactly the resolved set (plus untouched unrelated packages), nothing already right is reinstalled, and nothing still required is removed.

*Status:* partial. Proved for all installed sets, resolutions and execution orders: exactly the resolved versions, no needless operation, right packages untouched. REFUTED: packages outside the resolution are removed, and a store mode change of a package resolved to the installed one is ignored. 

*Model and proof:* Installed and resolved sets are association lists; orphans are computed as in the code and compared with reachability. Files: `InstallProps.v`.

*Theorems:* `C32_exactly_the_resolution`, `C32_right_ones_untouched`, `C32_no_needless_operation`, `C32_requests_recorded`, `C32_store_mode_partial`, `C32_store_mode_refuted`, `C32_unrelated_removed_refuted`.

### C33 Uninstall removes exactly what nobody needs any more

Uninstalling names removes a package exactly when it is not reachable through dependencies from a remaining user requested package; requested ones that are still needed stay but lose their requested mark.

*Status:* partial. Orphans proved exact for every graph with all published dependencies, REFUTED for inapplicable ones; uninstall proved given the resolver's answer and names spelled as installed, REFUTED for other spellings. 

*Model and proof:* Installed and resolved sets are association lists; orphans are computed as in the code and compared with reachability. Files: `InstallProps.v`.

*Theorems:* `C33_orphans_end`, `C33_orphans_exact_partial`, `C33_inapplicable_refuted`, `C33_uninstall_partial`, `C33_resolved_partial`, `C33_spelling_refuted`.

### C34 Removing a package only deletes its own files

Removing an installed package deletes exactly its recorded files inside the installation target and the directories that became empty; every other file stays.

*Status:* partial. REFUTED for records leading out of the target and for shared __pycache__ directories; proved otherwise for all file systems, record lists and visiting orders. 

*Model and proof:* RECORD lists and the file system; uninstall is a function; induction over the records. Files: `InstallProps.v`.

*Theorems:* `C34_ends`, `C34_own_files_gone`, `C34_other_files_stay_partial`, `C34_removed_directories`, `C34_no_empty_directory_left`, `C34_shared_pycache_refuted`, `C34_escape_refuted`.

### C35 Package names compare as PyPI compares them

Two names that differ only in case and in runs of '-', '_' and '.' denote the same package; normalisation is idempotent.

*Status:* partial. REFUTED for runs of separators in keys (see C35_runs_refuted); proved otherwise. 

*Model and proof:* Name normalisation on character lists. Files: `PackageProps.v`.

*Theorems:* `C35_normalize_idempotent`, `C35_key_idempotent`, `C35_same_key_same_package`, `C35_same_package_same_key_partial`, `C35_runs_refuted`.

### C36 The best artifact is chosen

For an environment, the chosen artifact is compatible, no other compatible wheel scores higher, and a source artifact is chosen only when no wheel is compatible.

*Status:* proved. For every list of artifacts and every scoring function. 

*Model and proof:* The choice as a fold with scores, compared with the maximum. Files: `PackageProps.v`.

*Theorems:* `C36_best_wheel`, `C36_source_last`, `C36_nothing_usable`.

### C37 Installing a wheel verifies its record

A wheel any of whose recorded files has a wrong hash is rejected and leaves the target unchanged; an accepted wheel's installed record lists every installed file with the hash of its installed content.

*Status:* partial. REFUTED: dist-info files are not verified, recorded files may be missing, files of the dist-info need no record; proved: files outside dist-info with a wrong hash or without record are rejected. 

*Model and proof:* Record verification with an arbitrary hash function, over which the theorem quantifies. Files: `PackageProps.v`.

*Theorems:* `C37_tampered_rejected_partial`, `C37_unrecorded_rejected`, `C37_installed_record_partial`, `C37_metadata_tampered_refuted`, `C37_missing_file_refuted`, `C37_unlisted_file_refuted`.

### C38 TOML write/read round trip

Any string, key or nested table written by the TOML writer is read back identically by the TOML reader.

*Status:* partial. Strings, keys, inline values and whole documents (nested tables, arrays of tables, inline values) are read back as the same data when no string ends with a backslash or contains NUL and no nested table is empty. REFUTED: strings ending with a backslash, every document that ends with a number, empty tables. Floats, times, strings over several lines and rewriting with kept styles are not modelled. 

*Model and proof:* The TOML writer and reader, both on character lists; the round trip is symbolic execution of the reader on what the writer writes. Files: `TomlProps.v`.

*Theorems:* `C38_string_partial`, `C38_backslash_refuted`, `C38_value_partial`, `C38_document_partial`, `C38_number_at_end_refuted`, `C38_empty_table_refuted`.

### C39 Dotted config keys read what was written

In a configuration, reading a key path after writing it returns the written value and leaves all other paths unchanged; popping removes exactly that path.

*Status:* partial. Proved for all tables, keys and values: a written value is read back, paths beside it do not change, popping returns the value and only removes it, and both fail exactly when the path is blocked. REFUTED only for a value above the path that counts as false (0, empty text): writing below it replaces it. 

*Model and proof:* Key paths on nested dictionaries; induction over the path. Files: `ConfigProps.v`.

*Theorems:* `C39_write_read`, `C39_write_others`, `C39_write_above_partial`, `C39_write_fails_iff`, `C39_pop`, `C39_pop_fails_iff`, `C39_write_pop`, `C39_false_value_refuted`.

### C40 Hashes of unordered data do not depend on order

Hashing a set or mapping gives the same value for every iteration order, and hashing a sequence depends only on its elements in order.

*Status:* proved. Item hashes are an arbitrary function. 

*Model and proof:* `HashBuilder` over an arbitrary hash of byte strings. Files: `CollectionProps.v`.

*Theorems:* `C40_unordered_seq`, `C40_unordered_mapping`, `C40_ordered`, `C40_ordered_sensitive`.

### C41 Collection helpers keep every element

groupby, partition, distinct, argmax, first/last and default lookups return each input element exactly where their documentation says: grouping loses and invents nothing, keeps the order in a group; partition splits; distinct keeps first occurrences; defaults are returned instead of errors.

*Status:* partial. REFUTED for get_or_default (never returns the default), without_suffix with an empty suffix, and Seq.to_list(into=[]); the others proved. 

*Model and proof:* Generators are the lists they yield; list induction. Files: `CollectionProps.v`.

*Theorems:* `C41_groupby`, `C41_groupby_keys_once`, `C41_groupby_all`, `C41_distinct`, `C41_distinct_once`, `C41_partition`, `C41_argmax`, `C41_index_of`, `C41_pop`, `C41_single`, `C41_suffix_partial`, `C41_prefix`, `C41_remove_by_value`, `C41_get_or_put`, `C41_get_or_default_refuted`, `C41_empty_suffix_refuted`, `C41_to_list_refuted`.

### C42 Environment markers follow boolean precedence

A marker expression evaluates as and-before-or with parentheses, for every environment, and printing then parsing keeps its value.

*Status:* partial. Proved for every text of the PEP 508 grammar (any nesting, blanks, quotes) without the letter J and the operator ===, for all environments; printing and reading again is exact for everything that was read; reading always ends with a marker, a ValueError or a TypeError. Comparisons with extras, of versions and of words are characterised. REFUTED: texts with J, ===, 'in extra' (looks into the printed list), equality of texts that begin like versions. 

*Model and proof:* The marker and dependency grammars on character lists; evaluation compared with an independent boolean semantics. Files: `MarkerProps.v`.

*Theorems:* `C42_precedence_partial`, `C42_inside`, `C42_print_parse`, `C42_errors`, `C42_extra`, `C42_version_atom`, `C42_text_atom`, `C42_text_order`, `C42_in_atom`, `C42_letter_refuted`, `C42_arbitrary_refuted`, `C42_in_extra_refuted`, `C42_text_equality_refuted`.

### C43 Dependencies round-trip through their text form

Printing a dependency and parsing it back gives an equivalent dependency (name, extras, version specifier, marker).

*Status:* partial. Proved for every text that parses to a dependency on one version, its exclusion or a range, and for constructed ones up to the blanks of the marker. REFUTED: the marker of an url dependency is lost, unions do not parse again, names that begin with a digit, upper case pre-releases are cut off. 

*Model and proof:* The marker and dependency grammars on character lists; evaluation compared with an independent boolean semantics. Files: `DependencyProps.v`.

*Theorems:* `C43_parsed_partial`, `C43_constructed_partial`, `C43_shape`, `C43_url_marker_refuted`, `C43_union_refuted`, `C43_digit_name_refuted`, `C43_case_refuted`.

### C44 Repositories are searched in order and bindings are obeyed

For a plain dependency the first repository in configuration order with a match answers; a bound package is only ever taken from its bound repository; bind-only repositories are never used for unbound packages; an unmatched url dependency yields an empty result.

*Status:* partial. The answering repository is characterised for bound, unbound and url dependencies; REFUTED for urls nobody answers (TypeError), other spellings of a bound package and repositories that raise. 

*Model and proof:* A repository is what its users see of it: a function from requirements to packages. Configurations are ordered association lists. Files: `RepoProps.v`.

*Theorems:* `C44_first_match_answers`, `C44_bound_repository_answers`, `C44_bound_to_unknown`, `C44_url_answer_partial`, `C44_composite_is_lawful`, `C44_unmatched_url_refuted`, `C44_spelling_refuted`, `C44_failing_repository_refuted`.

### C45 Pre-releases are only offered when asked for or unavoidable

match returns pre-releases only if the specifier mentions one or every candidate is a pre-release; otherwise exactly the non pre-releases, in order.

*Status:* proved. 'Mentions one' is the inductive predicate asks. 

*Model and proof:* A repository is what its users see of it: a function from requirements to packages. Configurations are ordered association lists. Files: `LockProps.v`.

*Theorems:* `C45_only_when_asked`, `C45_otherwise`, `C45_all_when_asked`.

### C46 Repository inheritance visits each context once, nearest first

The lookup chain of a context terminates, contains each configuration at most once, starts with the context itself, and contains exactly the contexts reachable by inheritance.

*Status:* partial. Termination on every finite context graph, no configuration twice, the context first, complete and nearest first for distinct directories; REFUTED for the mode global and for contexts that share a directory. 

*Model and proof:* A repository is what its users see of it: a function from requirements to packages. Configurations are ordered association lists. Files: `RepoProps.v`.

*Theorems:* `C46_chain_terminates`, `C46_chain_partial`, `C46_nearest_first_partial`, `C46_global_refuted`, `C46_same_directory_refuted`.

### C47 Two differently named repositories stay distinct

Each configured repository is available under its own configured name, so binding a package to it by name works.

*Status:* partial. Proved for bindings by name when no two definitions are the same; REFUTED for equal definitions, bind-only definitions built before under another name and bindings in place. 

*Model and proof:* A repository is what its users see of it: a function from requirements to packages. Configurations are ordered association lists. Files: `RepoProps.v`.

*Theorems:* `C47_own_names_partial`, `C47_distinct_partial`, `C47_binding_by_name_partial`, `C47_same_definition_refuted`, `C47_bind_only_refuted`, `C47_inline_refuted`.

### C48 Changing bindings and repositories touches nothing else

Registering, clearing bindings, adding and removing a repository change exactly the named entries of the configuration; a removed repository has no remaining binding.

*Status:* partial. Exact effect of each operation on memory and file and of sequences of them; REFUTED after the repositories were loaded (bindings in place lose their type) and for bindings to an instance. 

*Model and proof:* A repository is what its users see of it: a function from requirements to packages. Configurations are ordered association lists. Files: `RepoProps.v`.

*Theorems:* `C48_operation_exact`, `C48_removed_has_no_binding`, `C48_operations_partial`, `C48_after_loading_refuted`, `C48_instance_binding_refuted`.

### C49 Activation is undone on exit

Leaving an environment or zoo activation restores PATH and VIRTUAL_ENV to exactly their values (or absence) before, also when the body fails and when activations nest.

*Status:* partial. Proved for every body that does not delete a variable that was unset before, and for all nestings with failures; REFUTED for an empty PATH in a zoo and for bodies that delete PATH. 

*Model and proof:* The process environment is a finite map, the body an arbitrary function on it. Files: `ActivateProps.v`.

*Theorems:* `C49_environment_partial`, `C49_zoo_partial`, `C49_nested_partial`, `C49_empty_path_refuted`, `C49_deleted_path_refuted`.

### C50 Compatibility scores respect the tag rules

A tag set is compatible exactly when one of its expanded tags is, its score is the best of them, an incompatible interpreter/abi/platform is never accepted.

*Status:* partial. Soundness and best score proved for all tags and machines; completeness for well formed tag sets; REFUTED with a malformed alternative and for musl platforms. 

*Model and proof:* Tag scoring as a function on strings over a description of the machine. Files: `TagsProps.v`.

*Theorems:* `C50_accepted_is_compatible`, `C50_compatible_is_accepted_partial`, `C50_single_tag`, `C50_malformed_alternative_refuted`, `C50_musl_refuted`.

### C51 Build cycles, and only cycles, are rejected

Building a package fails with a cycle error exactly when the chain of packages currently being built already contains it.

*Status:* partial. REFUTED in general: a source distribution whose metadata is not published by the repository is built twice in one build environment (metadata, then wheel) and the second build is reported as a cycle although there is none. Proved: builds always end; a real cycle is always rejected; with published metadata a cycle error occurs exactly for real cycles. Threads of an installation are modelled one after the other. 

*Model and proof:* The recursion over the requirement graph with fuel; fuel is shown to suffice. Files: `BuildProps.v`.

*Theorems:* `C51_terminates`, `C51_cycle_rejected`, `C51_exact_partial`, `C51_unpublished`, `C51_exact_refuted`.

### C52 The source build cache returns what was built from the same source

A cached artifact is returned only for the same package, version, environment markers and archive content; a crash at any point never leaves a state from which a wrong artifact is returned.

*Status:* partial. Proved for every history of requests and crashes: a reply comes from a build with the same directory key and archive digest, possibly truncated. REFUTED: a crash during the copy leaves a truncated METADATA or wheel that is served afterwards; the key of the version is not injective; a metadata request may be answered with a wheel path. 

*Model and proof:* The cache directory is a finite map; operations are lists of effects, a crash is a prefix. Files: `BuildProps.v`.

*Theorems:* `C52_key`, `C52_whole_partial`, `C52_hit`, `C52_metadata_kind_refuted`, `C52_crash_refuted`, `C52_version_refuted`.

### C53 Shared packages are collected exactly when unused

Cleaning the shared store removes exactly the shared artifacts no environment references, and empty parent directories; everything referenced stays.

*Status:* partial. Exact effect of the cleaning on every path for the environments that are looked at, when no environment has two dist-infos of one package; nothing outside of the store changes. REFUTED: references of package containers are not looked at, a zoo opened under another spelling does not recognise the references, of two dist-infos with one name only the last counts. Symbolic links and failing removals are not modelled. 

*Model and proof:* The store is a list of directories with references. Files: `SharedProps.v`.

*Theorems:* `C53_clean_partial`, `C53_referenced_stays`, `C53_unreferenced_goes`, `C53_outside`, `C53_only_removes`, `C53_container_refuted`, `C53_spelling_refuted`, `C53_shadowed_refuted`.

### C54 The process pool is bounded and finishes or cancels tasks correctly

At most max_workers workers exist, each submitted task is executed at most once and its promise settled exactly once; a task cancelled before it starts is never executed.

*Status:* partial. Proved over all interleavings of submitters, cancellers, workers and worker processes: at most max_workers workers, no task executed twice, no promise settled twice, a promise gets the answer to its own task, and at rest every task is settled, running, or queued behind max_workers running tasks (when every worker process starts). REFUTED for cancelling: a task cancelled before it starts is executed, and cancelling a finished task kills the worker while it runs another task. 

*Model and proof:* Transition system of submitters, cancellers, workers and worker processes; invariants over all reachable states. Files: `PoolProps.v`.

*Theorems:* `C54_bounded_partial`, `C54_once_partial`, `C54_settled_partial`, `C54_cancel_too_late_partial`, `C54_cancel_refuted`, `C54_cancel_kills_refuted`.

### C55 Cached properties are computed once

However many threads read a cached property concurrently, its computation runs at most once between invalidations and all readers see the same value.

*Status:* partial. Proved for any number of threads and every schedule without invalidation (failing computations included); REFUTED across an invalidation. 

*Model and proof:* Transition system of threads reading the property. Files: `CachedProps.v`.

*Theorems:* `C55_computed_once_partial`, `C55_invalidated_refuted`.

### C56 Url text form round-trips

Parsing a url and printing it gives back the same url.

*Status:* partial. Proved for every url with a scheme and an absolute or empty path; REFUTED for urls without scheme or with a relative path. 

*Model and proof:* Functions on character lists; round trip by symbolic execution. Files: `HttpProps.v`.

*Theorems:* `C56_print_parse`, `C56_reparse_partial`, `C56_schemeless_refuted`, `C56_opaque_refuted`.

### C57 Multipart uploads are well-formed

The streamed body of a multipart form equals the concatenation prescribed by RFC 7578 (each part delimited by the boundary and the body closed by the final delimiter) whatever the chunking of reads.

*Status:* partial. REFUTED: the closing delimiter is missing; the rest of the body is proved independent of the chunking. 

*Model and proof:* Functions on character lists; round trip by symbolic execution. Files: `HttpProps.v`.

*Theorems:* `C57_body_is_the_parts_in_order_partial`, `C57_no_closing_delimiter_refuted`.

### C58 Command line arguments are assigned as declared

Parsing a command line assigns every argument to a declared option or positional, rejects unknown or missing ones, and never assigns one argument twice or drops one silently.

*Status:* partial. REFUTED: an empty word ends parsing and drops the rest, a lone dash is dropped, a value given to a flag sets it and becomes the next word, '--opt=' takes the next word, a second value of a non-repeatable option replaces the first, a '*' positional takes later options as values. Proved for definitions in which flags have no fields and positionals are not flags: on command lines without empty words, lone dashes and values for flags, parsing succeeds exactly when the words split into uses of declared commands, options, fields and positionals, with that result; parsing ends; every understood command has a value for exactly the declared arguments; defaults, required arguments and mutex groups are as declared. Missing: dynamic commands, dynamic arguments and field providers. 

*Model and proof:* The command parser as a function on argument lists over declared commands and arguments. Files: `CliMoreProps.v`, `CliProps.v`.

*Theorems:* `C58_understood_partial`, `C58_ends_partial`, `C58_commands`, `C58_whole`, `C58_defaults_partial`, `C58_field_name`, `C58_subfields`, `C58_repeated`, `C58_empty_word_refuted`, `C58_dash_refuted`, `C58_flag_value_refuted`, `C58_empty_value_refuted`, `C58_twice_refuted`, `C58_swallowed_refuted`.

### C59 Template rendering never overwrites without permission

Without the overwrite flag, executing a template either fails before changing any file of the target or only adds files.

*Status:* partial. REFUTED as stated: a template file named like a directory of the target is copied into that directory and silently replaces the file of the same name there, and a rendered name with .. or an absolute one leaves the temporary directory and replaces files unchecked. Proved for plain names: nothing else is ever lost (any outcome), a clash with an existing file fails before any change, a failed rendering changes nothing. 

*Model and proof:* Template execution on the finite-map file system; what jinja renders is arbitrary. Files: `TemplateProps.v`.

*Theorems:* `C59_nothing_lost_partial`, `C59_refused_partial`, `C59_failure_partial`, `C59_doubled_refuted`, `C59_escape_refuted`.

### C60 Link files round-trip

Saving a path link file and loading it returns the same imports and links.

*Status:* partial. Proved for absolute paths without line breaks or trailing blanks and non-empty trimmed imports; REFUTED for the others. 

*Model and proof:* Saving and loading of link files on character lists. Files: `PthProps.v`.

*Theorems:* `C60_round_trip_partial`, `C60_line_break_refuted`, `C60_blank_refuted`, `C60_empty_import_refuted`.

### C61 Resolution fails only for reasons of the problem

On a solvable problem whose versions have usable metadata, resolution does not fail with an internal error (failed assertion, index error).

*Status:* partial. REFUTED: solvable problems that end in an AssertionError and in an IndexError. 

*Model and proof:* The solver of C15; each error result is traced to its cause. Files: `PubgrubProps.v`.

*Theorems:* `C61_assertion_error_refuted`, `C61_index_error_refuted`.

### C62 Repositories return only packages that fit the request

Every package a repository returns for a dependency without a url satisfies the version specifier of that dependency, when the repositories it is made of do so.

*Status:* partial. Proved for composite repositories; REFUTED for the repository of projects. 

*Model and proof:* The composite repository of C44; what the base class ensures is stated as `lawful`. Files: `RepoProps.v`.

*Theorems:* `C62_composite_answers_fit_partial`, `C62_projects_refuted`.

### C63 Shared artifacts are reused

Installing a package version whose artifact is already in the shared store of the zoo links that artifact instead of installing it again.

*Status:* partial. REFUTED for every store with an artifact of the version: the code reads an attribute that does not exist and fails with AttributeError; an artifact is never reused. 

*Model and proof:* The store of C53 with the choice of artifacts. Files: `SharedProps.v`.

*Theorems:* `C63_never_reused`, `C63_second_install_fails`, `C63_reuse_refuted`, `C63_first_install`.

### C64 Saving an unchanged configuration keeps it

Loading a configuration file and saving the resulting object without changing it preserves every setting of the file.

*Status:* partial. Proved for every class without dotted keys whose leftovers are kept. REFUTED: a project file with a [tool] table loses all tool.pkm settings when saved, settings unknown to a class without leftovers are dropped, and contact names get another pair of quotes on each load. 

*Model and proof:* The codec of configuration classes over descriptions of fields. Files: `ConfigProps.v`.

*Theorems:* `C64_load_save_partial`, `C64_tool_table_refuted`, `C64_tool_table_always`, `C64_unknown_setting_refuted`, `C64_contact_stable_iff`, `C64_contact_grows_refuted`.

### C65 Optional dependencies apply only with their extra

A dependency listed in an optional group applies exactly when the extra of that group is requested and its own marker holds.

*Status:* partial. Proved for dependencies without a marker. REFUTED for every dependency with a marker of its own: the guard is cut off when the combined text is parsed, so it applies without the extra; a group with the letter J in its name is an error. 

*Model and proof:* `all_dependencies` composed with the marker semantics of C42. Files: `ProjectProps.v`.

*Theorems:* `C65_dependencies`, `C65_plain_partial`, `C65_marker_unguarded`, `C65_marker_refuted`, `C65_letter_refuted`.

### C66 Cleaning the build directory keeps the wanted versions

Cleaning the build directory removes all artifacts except the ones of the versions to keep, and touches nothing else.

*Status:* partial. Exact effect on every path, for versions compared by their text. REFUTED: a version to keep whose directory spells it differently (1.0 and 1.0.0) is removed. Symbolic links and failing removals are not modelled. 

*Model and proof:* The build directory is a list of file names; the cleaning is a filter on them. Files: `ProjectProps.v`.

*Theorems:* `C66_clean_partial`, `C66_total`, `C66_spelling_refuted`.

### C67 Attaching an environment destroys nothing

Opening the environment attached to a project deletes no file that is not part of an environment.

*Status:* partial. An existing environment stays as it is and nothing outside of the path changes. REFUTED: any other directory configured as the path is deleted with all its contents, even when creating the environment then fails. 

*Model and proof:* The project directory is a finite-map file system. Files: `ProjectProps.v`.

*Theorems:* `C67_existing`, `C67_place`, `C67_outside_partial`, `C67_deletes_always`, `C67_deletes_refuted`.

### C68 Entry points reach the installation

Every entry point declared by a project is written to its distribution and read back with the same group, name and reference.

*Status:* partial. Proved for entries with distinct group and name and references without extras. REFUTED: references with extras grow a blank each time, a table of entry points ends in endless recursion, gui scripts become console scripts and may replace them. 

*Model and proof:* Printing and parsing of object references, and the entry points file. Files: `ProjectProps.v`.

*Theorems:* `C68_file_partial`, `C68_reference_partial`, `C68_extras_grow`, `C68_extras_refuted`, `C68_tables_refuted`, `C68_scripts`, `C68_gui_refuted`, `C68_same_name_refuted`.

### C69 Building a group builds its projects

Building a project group builds each project listed by it or by a group below it exactly once, reports listed directories that are no project, and the root of a group is its topmost parent.

*Status:* partial. The set of built projects and the group of a project are exact, and the walk ends without cycles. REFUTED: missing directories are passed over, a project listed twice is built twice, root is always None. 

*Model and proof:* Groups are configurations in a tree of directories; building is a recursion with fuel, shown to suffice for acyclic groups. Files: `ProjectProps.v`.

*Theorems:* `C69_built_iff`, `C69_ends`, `C69_missing_refuted`, `C69_twice_refuted`, `C69_root_refuted`, `C69_group_of`, `C69_parent`.

### C70 Adding to and removing from a group are inverse

Removing a project from a group removes exactly the entries for its path, so that removing an added project restores the list.

*Status:* partial. Proved when paths are understood in the directory of the group. REFUTED: relative paths are removed relative to the current directory. 

*Model and proof:* Groups are configurations in a tree of directories; building is a recursion with fuel, shown to suffice for acyclic groups. Files: `ProjectProps.v`.

*Theorems:* `C70_remove_partial`, `C70_add_remove_partial`, `C70_relative_refuted`.

### C71 Reading TOML comes to an end

Reading any text as TOML either returns the data or raises an error.

*Status:* partial. Proved for every text that ends with a line end. REFUTED: a comment at the end of the file without a line end is an endless loop. 

*Model and proof:* The TOML reader of C38 with fuel; how much fuel suffices is proved. Files: `TomlProps.v`.

*Theorems:* `C71_line_end_partial`, `C71_comment_at_end_refuted`.

### C72 Reading TOML runs no code

Reading a TOML file evaluates nothing but string and number literals of the file.

*Status:* partial. Proved for strings without two backslashes in a row. REFUTED: a string whose quote follows two backslashes is cut at the wrong quote, and the python code behind it is evaluated. 

*Model and proof:* The TOML reader of C38; calls of `eval` are values of the model. Files: `TomlProps.v`.

*Theorems:* `C72_literal_partial`, `C72_call_refuted`.

### C73 Closing a process pool ends its work

Closing a process pool returns once the tasks that were running are done, and afterwards no worker process is started and no task is left in the queue.

*Status:* partial. REFUTED: close() waits for ever for a worker that was busy, since that worker leaves its loop without ending its process, and the pool then starts worker processes without end while the queued task stays; proved that a closed pool keeps its queue. 

*Model and proof:* The pool of C54 with `close`. Files: `PoolProps.v`.

*Theorems:* `C73_queue_kept_partial`, `C73_close_hangs_refuted`, `C73_churn_refuted`.

### C74 Executing a template renders exactly its entries

Executing a template puts into the target every file and directory of the template, except the template's own control files (render.py, .templateignore, __pycache__), the ignored ones and those whose rendered name is empty, under its rendered name and with its rendered text, and nothing else.

*Status:* partial. REFUTED as stated: _render returns after the first preserved directory, so later siblings are dropped, and a .templateignore replaces the list of control files, so render.py itself is put into the target. Proved: without preserved directories, with plain names and room in the target, the execution succeeds and adds exactly the outputs of an independently stated relation, in a temporary directory or in place. 

*Model and proof:* The template execution of C59 compared with a specification of the rendered tree. Files: `TemplateProps.v`.

*Theorems:* `C74_exact_partial`, `C74_in_place_partial`, `C74_preserved_refuted`, `C74_control_files_refuted`.

### C75 The order of versions is irreflexive and transitive

No version is below itself; if one version is below a second and that below a third, the first is below the third; two standard versions of which neither is below the other are equal, or agree in everything public and have local labels that differ only in spelling (equal numbers written differently, an empty label).

*Status:* proved. for the model of standard versions. 

*Model and proof:* As C01, the part that holds. Files: `VersionProps.v`.

*Theorems:* `C01_irreflexive`, `C01_transitive`, `C01_incomparable_iff`.

### C76 Equality of versions means equal parts

Equality of versions is reflexive, symmetric and transitive, and two standard versions are equal exactly if their epochs (a missing one is 0), their releases up to trailing zeros, their pre-, post- and dev-releases and their local labels are equal.

*Status:* proved. 

*Model and proof:* As C02, the part that holds. Files: `VersionProps.v`.

*Theorems:* `C02_equality_meaning`, `C02_equivalence`.

### C77 Every text is read as a version

Reading any text as a version gives a version and never fails.

*Status:* proved. 

*Model and proof:* As C05, the part that holds. Files: `VersionProps.v`.

*Theorems:* `C05_total`.

### C78 Different releases are ordered as PEP 440 orders them

If two versions differ in the epoch or in a number of the release, their order is that of PEP 440, whatever the other parts are.

*Status:* proved. 

*Model and proof:* As C03, the part that holds. Files: `VersionProps.v`.

*Theorems:* `C03_release_decides`.

### C79 A printed url is read back

Printing a url whose parts can stand in a url and reading the text gives the same url.

*Status:* proved. wf_url spells out which parts can stand in a url. 

*Model and proof:* As C56, the part that holds. Files: `HttpProps.v`.

*Theorems:* `C56_print_parse`.

### C80 One download at a time

However many callers fetch a resource at the same time, and whichever of them are aborted, at most one of them is contacting the server at any time.

*Status:* proved. 

*Model and proof:* As C26, the part that holds. Files: `HttpProps.v`.

*Theorems:* `C26_one_download_at_a_time`.

### C81 Every request ends

A request makes at most (1 + number of redirects) times the number of tries contacts, and ends after them, whatever the server answers.

*Status:* proved. 

*Model and proof:* As C28, the part that holds. Files: `HttpProps.v`.

*Theorems:* `C28_contacts_bounded`, `C28_always_ends`.

### C82 The connection pool keeps its limit

At no time the pool keeps more idle connections than its limit, and a closed pool keeps none.

*Status:* proved. 

*Model and proof:* As C29, the part that holds. Files: `HttpProps.v`.

*Theorems:* `C29_limit`, `C29_closed_keeps_nothing`.

### C83 Settled promises are final and callbacks run once

A settled promise never changes and settling it again raises; every callback runs at most once and sees the settled state; when all threads are through, the callbacks of settled promises have run exactly once, their promises hold what they returned or raised, and the others have not run; a promise holds only a value some thread has given it.

*Status:* proved. threads interleave at the locks of the code. 

*Model and proof:* As C30, the part that holds. Files: `PromiseProps.v`.

*Theorems:* `C30_settled_once`, `C30_second_raises`, `C30_at_most_once`, `C30_sees_the_settled_state`, `C30_exactly_once`, `C30_value_was_given`.

### C84 Awaiting all promises waits for all

await_all returns only when all promises are settled, and without ignore_error only when none failed; otherwise it raises the error of the first failing one after waiting for those before it; await_all_or_cancel that returns has asked nothing to cancel.

*Status:* proved. 

*Model and proof:* As C31, the part that holds. Files: `PromiseProps.v`.

*Theorems:* `C31_await_all`, `C31_await_all_failure`, `C31_cancel_success`.

### C85 The installation plan reaches the resolution

Executing the operations of the plan in any order leaves exactly the resolved packages in the resolved versions, touches no package that is right already, has a reason for every operation, and records the requests.

*Status:* proved. plan_input: no key installed or resolved twice. 

*Model and proof:* As C32, the part that holds. Files: `InstallProps.v`.

*Theorems:* `C32_exactly_the_resolution`, `C32_right_ones_untouched`, `C32_no_needless_operation`, `C32_requests_recorded`.

### C86 Removing an installation removes its files and empty directories

Removing an installed distribution comes to an end unless a record names a directory; afterwards all its recorded files and its dist-info are gone, each directory that is gone belonged to it and is empty (or is its dist-info or a __pycache__), and no directory of the site that was not empty before is left empty.

*Status:* proved. 

*Model and proof:* As C34, the part that holds. Files: `InstallProps.v`.

*Theorems:* `C34_ends`, `C34_own_files_gone`, `C34_removed_directories`, `C34_no_empty_directory_left`.

### C87 Normalised names are stable

Normalising a normalised name changes nothing, the same for the keys of names, and two valid names with the same key are the same name for PyPI.

*Status:* proved. 

*Model and proof:* As C35, the part that holds. Files: `PackageProps.v`.

*Theorems:* `C35_normalize_idempotent`, `C35_key_idempotent`, `C35_same_key_same_package`.

### C88 Accepted tags are compatible

A tag with a compatibility score has a compatible single tag, its score is the best of the scores of its single tags, and on a machine whose interpreter tag is in lower case every compatible single tag has a score.

*Status:* proved. 

*Model and proof:* As C50, the part that holds. Files: `TagsProps.v`.

*Theorems:* `C50_accepted_is_compatible`, `C50_single_tag`.

### C89 Repositories answer in their order

A composite repository answers a request for an unbound package with the answer of the first searched repository that has one; the repository a package is bound to answers for it, an unknown one is an error; a composite repository obeys the same rules as its parts.

*Status:* proved. lawful: what the base class AbstractRepository ensures for every repository. 

*Model and proof:* As C44, the part that holds. Files: `RepoProps.v`.

*Theorems:* `C44_first_match_answers`, `C44_bound_repository_answers`, `C44_bound_to_unknown`, `C44_composite_is_lawful`.

### C90 Repository contexts are walked to an end

Walking from a context through the contexts it inherits from comes to an end, for every finite set of contexts, also with cycles.

*Status:* proved. 

*Model and proof:* As C46, the part that holds. Files: `RepoProps.v`.

*Theorems:* `C46_chain_terminates`.

### C91 A change of the repository configuration does exactly that

Every operation on repositories and bindings leaves each binding and each repository as the operation says, leaves all others as they were, and writes the same to the file; a removed repository has no bindings left.

*Status:* proved. 

*Model and proof:* As C48, the part that holds. Files: `RepoProps.v`.

*Theorems:* `C48_operation_exact`, `C48_removed_has_no_binding`.

### C92 Source builds end, and no cycle is built

Over any finite set of packages closed under build requirements a build ends with the wheel or the report of a cycle, whatever is in the cache, and a package that needs a package that needs itself is never built.

*Status:* proved. 

*Model and proof:* As C51, the part that holds. Files: `BuildProps.v`.

*Theorems:* `C51_terminates`, `C51_cycle_rejected`.

### C93 A finished build is served from the cache

A request for which the builder gave what was asked for (with a wheel file name ending in .whl) is answered from the cache the next time without a build; every answer comes from a build for the same directory names, the same markers and the same archive digest, and it is a part of what that build gave.

*Status:* proved. 

*Model and proof:* As C52, the part that holds. Files: `BuildProps.v`.

*Theorems:* `C52_hit`, `C52_key`.

### C94 Markers are read or refused, and print as they were read

Reading a text as a marker ends, with a marker, a ValueError or a TypeError; reading the printed text of a marker that was read gives the same marker.

*Status:* proved. 

*Model and proof:* As C42, the part that holds. Files: `MarkerProps.v`.

*Theorems:* `C42_print_parse`, `C42_errors`.

### C95 Marker comparisons mean what they say

A marker that compares the extra with a name holds exactly if that extra is requested; one that compares an environment version with a version clause holds exactly if the clause allows that version; one that compares a marker with a word holds exactly if they are equal (or not).

*Status:* proved. versions: the clauses that PEP 440 defines on candidates without local part, as in C13. 

*Model and proof:* As C42, the part that holds. Files: `MarkerProps.v`.

*Theorems:* `C42_extra`, `C42_version_atom`, `C42_text_atom`.

### C96 Cleaning the shared store removes exactly the unreferenced artifacts

Every artifact that a package of an environment refers to stays as it is, every other one goes with all that is in it, nothing outside the store is touched, and nothing is added or changed.

*Status:* proved. 

*Model and proof:* As C53, the part that holds. Files: `SharedProps.v`.

*Theorems:* `C53_referenced_stays`, `C53_unreferenced_goes`, `C53_outside`, `C53_only_removes`.

### C97 Dotted keys change exactly their path

Writing a dotted key fails only when a value in its way is no table; then the value is there and no path beside it changes. Popping fails in the same case only; it returns what was there, and that is gone, no path beside it changes and the tables above stay.

*Status:* proved. 

*Model and proof:* As C39, the part that holds. Files: `ConfigProps.v`.

*Theorems:* `C39_write_read`, `C39_write_others`, `C39_write_fails_iff`, `C39_pop`, `C39_pop_fails_iff`, `C39_write_pop`.

### C98 The projects below a group

The projects that are built for a group are the ones that it or a group below it lists; the walk ends when no group is below itself; the group of a project is the nearest directory above whose group file lists it.

*Status:* proved. 

*Model and proof:* As C69, the part that holds. Files: `ProjectProps.v`.

*Theorems:* `C69_built_iff`, `C69_ends`, `C69_group_of`.

### C99 An existing environment is attached as it is

If the attached path of a project is a virtual environment, opening it changes no file and gives that path.

*Status:* proved. 

*Model and proof:* As C67, the part that holds. Files: `ProjectProps.v`.

*Theorems:* `C67_existing`.

### C100 Collection helpers

Grouping keeps every element under its key once and in order, distinct keeps the first of each key, partitioning, argmax, index_of, pop, single, removing a prefix, remove by value and get-or-put do what their names say.

*Status:* proved. 

*Model and proof:* As C41, the part that holds. Files: `CollectionProps.v`.

*Theorems:* `C41_groupby`, `C41_groupby_keys_once`, `C41_groupby_all`, `C41_distinct`, `C41_distinct_once`, `C41_partition`, `C41_argmax`, `C41_index_of`, `C41_pop`, `C41_single`, `C41_prefix`, `C41_remove_by_value`, `C41_get_or_put`.

### C101 An understood command has exactly its declared arguments

The command at a path is the last one defined for it, and each command of an understood command line has a value for every argument it declares (and the help flag) and for nothing else.

*Status:* proved. 

*Model and proof:* As C58, the part that holds. Files: `CliProps.v`.

*Theorems:* `C58_commands`, `C58_whole`.

### C102 Locked versions come first

With a lock made by any updates, the packages a repository returns are the same in the same order, except that the locked ones come first.

*Status:* proved. for packages of one name, as the repository returns them. 

*Model and proof:* As C21, the part that holds. Files: `LockProps.v`.

*Theorems:* `C21_reorders`, `C21_repository`, `C21_one_per_env`.

### C103 Relative paths lead to their destination

Walking the computed path from the source reaches the destination, and the path first only goes up, then only down.

*Status:* proved. for a destination without '..', as resolved paths are. 

*Model and proof:* As C24, the part that holds. Files: `FilesProps.v`.

*Theorems:* `C24_path_to`.

### C104 A wheel with unrecorded files is refused

Installing a wheel that has a file which its record does not name, or has no record, fails.

*Status:* proved. 

*Model and proof:* As C37, the part that holds. Files: `PackageProps.v`.

*Theorems:* `C37_unrecorded_rejected`.

### C105 A dependency that was read has a normalised name and plain extras

The name of a dependency that was read is a normalised identifier and its extras, if any, are identifiers.

*Status:* proved. 

*Model and proof:* As C43, the part that holds. Files: `DependencyProps.v`.

*Theorems:* `C43_shape`.

### C106 The packages of a resolution work together

When a resolution succeeds, the package asked for is in the answer, and for every package in the answer that is needed with some extras, everything it requires in the environment with these extras (after overrides) is in the answer too, in a version that the requirement allows; a package that is needed with extras is also needed without.

*Status:* partial. For an answer of the solver that is a solution (C15), when no package comes up under two spellings, no version has a local label and no url requirements are involved. 

*Model and proof:* The translation of packages, extras and overrides into a problem of the solver, and of the answer back into packages. A repository is a function from names to packages. Files: `ResolveProps.v`.

*Theorems:* `C106_opened_partial`, `C106_works_partial`.

### C107 A resolution has one version of each package

No two packages of a resolution have names that are spellings of the same name.

*Status:* partial. REFUTED when requirements spell a name differently (foo_bar and foo-bar); proved when each package comes up under one spelling. 

*Model and proof:* The translation of packages, extras and overrides into a problem of the solver, and of the answer back into packages. A repository is a function from names to packages. Files: `ResolveProps.v`.

*Theorems:* `C107_one_version_partial`, `C107_one_version_refuted`.

### C108 Pre-releases that are asked for are found

If a requirement names a pre-release (x>=2a1) and the repository has such a version, the resolver considers it, and no other pre-releases when there are final releases.

*Status:* partial. REFUTED: the resolver lists versions without the requirement, so pre-releases are hidden as soon as there is one final release; which versions it hears of is characterised exactly. 

*Model and proof:* The translation of packages, extras and overrides into a problem of the solver, and of the answer back into packages. A repository is a function from names to packages. Files: `ResolveProps.v`.

*Theorems:* `C108_visible`, `C108_prerelease_refuted`.

### C109 A package of a local repository is found under its name

A project in a local repository is found for every requirement that spells its name, whatever the case of the letters.

*Status:* partial. REFUTED: names are lowered before they are looked up, so a project with upper case letters is never found. 

*Model and proof:* The translation of packages, extras and overrides into a problem of the solver, and of the answer back into packages. A repository is a function from names to packages. Files: `ResolveProps.v`.

*Theorems:* `C109_lower_case_partial`, `C109_name_refuted`.

### C110 A configuration is accepted only with its required settings

Reading a configuration succeeds only if every required setting, also one with a dotted key, is present and not empty (None).

*Status:* proved. 

*Model and proof:* The codec of C64 with dictionaries that the parse consumes. Files: `ConfigProps.v`.

*Theorems:* `C110_required`.

### C111 Reading a configuration leaves the dictionary as it was

Building an object from a dictionary (from_config) does not change the dictionary, so building it again gives an equal object.

*Status:* partial. REFUTED: settings are popped from the dictionary; the second object has only defaults, or a required setting is missed. 

*Model and proof:* The codec of C64 with dictionaries that the parse consumes. Files: `ConfigProps.v`.

*Theorems:* `C111_consumed`, `C111_twice`, `C111_same_refuted`.

### C112 An index offers the allowed versions, highest first

The packages found in a PyPI index are exactly the versions that the requirement allows and that have a file that can be installed, each with all of these files, sorted with the highest version first.

*Status:* proved. the order is proved for versions without local labels and urls, on which the order is an order. 

*Model and proof:* The json and html answers of an index are values; the packages that come of them are computed as in the code. Downloads go through a cache directory of named files and an arbitrary hash. Files: `IndexProps.v`.

*Theorems:* `C112_match`, `C112_offered`, `C112_artifacts`.

### C113 Every version of an index carries its metadata

The metadata attached to a package found in the index is the metadata of that version.

*Status:* partial. REFUTED: the dictionary with the metadata is emptied by the first package, so all other versions have no metadata and the first one has that of the latest release. 

*Model and proof:* The json and html answers of an index are values; the packages that come of them are computed as in the code. Downloads go through a cache directory of named files and an arbitrary hash. Files: `IndexProps.v`.

*Theorems:* `C113_only_one`, `C113_metadata_refuted`.

### C114 One bad file does not hide a project

A file whose python requirement cannot be read does not prevent other versions of the project from being found.

*Status:* partial. REFUTED; when the answer fails is characterised exactly. 

*Model and proof:* The json and html answers of an index are values; the packages that come of them are computed as in the code. Downloads go through a cache directory of named files and an arbitrary hash. Files: `IndexProps.v`.

*Theorems:* `C114_fails_iff`, `C114_other_versions_refuted`.

### C115 Versions are read from file names

The version that is read from the name of a wheel or source distribution in a simple index is the version in that name.

*Status:* partial. wheels proved; source distributions if the version has no dash, REFUTED otherwise. 

*Model and proof:* The json and html answers of an index are values; the packages that come of them are computed as in the code. Downloads go through a cache directory of named files and an arbitrary hash. Files: `IndexProps.v`.

*Theorems:* `C115_wheel`, `C115_sdist_partial`, `C115_dash_refuted`.

### C116 Links of an index page are resolved

The url of a file is the one that the link on the index page means according to RFC 3986.

*Status:* partial. proved for http(s) urls and links that start with one slash; REFUTED for relative links, links to other servers without a scheme, and files whose name starts with http. 

*Model and proof:* The json and html answers of an index are values; the packages that come of them are computed as in the code. Downloads go through a cache directory of named files and an arbitrary hash. Files: `IndexProps.v`.

*Theorems:* `C116_links_partial`, `C116_links_refuted`.

### C117 Downloads have the published hash

In every history of downloads, a file that is handed out has the hash that the index published for it.

*Status:* proved. 

*Model and proof:* The json and html answers of an index are values; the packages that come of them are computed as in the code. Downloads go through a cache directory of named files and an arbitrary hash. Files: `IndexProps.v`.

*Theorems:* `C117_verified`.

### C118 A broken download can be repeated

After a download that was rejected because of its hash, the next attempt can succeed.

*Status:* partial. REFUTED: the rejected file stays in the cache; proved that every later attempt fails. 

*Model and proof:* The json and html answers of an index are values; the packages that come of them are computed as in the code. Downloads go through a cache directory of named files and an arbitrary hash. Files: `IndexProps.v`.

*Theorems:* `C118_stuck`, `C118_retry_refuted`.

### C119 Downloads stay in the cache directory, apart from each other

The file in which a download is kept is inside the directory of the cache, and different urls are kept in different files.

*Status:* partial. proved if there is no dot-dot in the url, and apart from md5 collisions; REFUTED for urls with dot-dot. 

*Model and proof:* The json and html answers of an index are values; the packages that come of them are computed as in the code. Downloads go through a cache directory of named files and an arbitrary hash. Files: `IndexProps.v`.

*Theorems:* `C119_inside`, `C119_apart`, `C119_outside_refuted`.

### C120 All files of a version are found together

A package found in a simple index has all files of its version, and there is one package per version.

*Status:* partial. proved per spelling of the version; REFUTED when files spell the version differently. 

*Model and proof:* The json and html answers of an index are values; the packages that come of them are computed as in the code. Downloads go through a cache directory of named files and an arbitrary hash. Files: `IndexProps.v`.

*Theorems:* `C120_files`, `C120_page`, `C120_spelling_refuted`.

### C121 A RECORD is read as it was written

Loading a RECORD file that was saved gives the saved records, whatever characters the file names contain.

*Status:* proved. 

*Model and proof:* The csv reader and writer of python in the dialect the code uses, the `key: value` files, and the decoding of records. Files: `RecordFileProps.v`.

*Theorems:* `C121_csv`, `C121_records`.

### C122 A RECORD of another tool can be saved again

Saving a RECORD that was loaded keeps all of its lines, also the standard line for the RECORD itself without hash and length.

*Status:* partial. REFUTED: rows without hash or length raise KeyError and leave a truncated RECORD; exact condition proved. 

*Model and proof:* The csv reader and writer of python in the dialect the code uses, the `key: value` files, and the decoding of records. Files: `RecordFileProps.v`.

*Theorems:* `C122_saved_iff`, `C122_loses`, `C122_again_refuted`.

### C123 Every record names a file

Each record that is loaded from a RECORD has the name of a file.

*Status:* partial. REFUTED: an empty line gives a record without a file; proved that the files are exactly the first columns. 

*Model and proof:* The csv reader and writer of python in the dialect the code uses, the `key: value` files, and the decoding of records. Files: `RecordFileProps.v`.

*Theorems:* `C123_rows`, `C123_empty_line_refuted`.

### C124 WHEEL and pyvenv.cfg are read as they were written

Reading a file of key and value lines that was written gives the written values.

*Status:* partial. proved for values without colons, line ends and blanks at the edges; REFUTED for values with a colon and for repeated keys. 

*Model and proof:* The csv reader and writer of python in the dialect the code uses, the `key: value` files, and the decoding of records. Files: `RecordFileProps.v`.

*Theorems:* `C124_lines_partial`, `C124_fails_iff`, `C124_colon_refuted`.

### C125 Created environments are isolated

A created environment does not see the packages of the system, as its pyvenv.cfg says.

*Status:* partial. REFUTED for every home and version without an equals sign: the file is written with colons, and python reads settings with equals signs. 

*Model and proof:* The csv reader and writer of python in the dialect the code uses, the `key: value` files, and the decoding of records. Files: `RecordFileProps.v`.

*Theorems:* `C125_isolated_refuted`.

### C126 METADATA is read as it was written

Reading a METADATA file that was written gives the written fields with their values.

*Status:* partial. proved for fields without the description whose values fit on their lines; broken values come back with the line breaks; REFUTED for lists of one text. 

*Model and proof:* The writer of METADATA, the reader of `email` messages as far as those files need it, and the form that an upload fills. Files: `MetadataProps.v`.

*Theorems:* `C126_read_partial`, `C126_missing`, `C126_folded`, `C126_shapes_refuted`.

### C127 The description of a package survives

The description that is written to METADATA is there when METADATA is read.

*Status:* partial. REFUTED: never read back. 

*Model and proof:* The writer of METADATA, the reader of `email` messages as far as those files need it, and the form that an upload fills. Files: `MetadataProps.v`.

*Theorems:* `C127_description_refuted`.

### C128 Values of several lines are kept or refused

A value of several lines, such as the text of a license, is either written to METADATA or reported as an error.

*Status:* partial. REFUTED: texts are left out silently; only entries of lists are errors. 

*Model and proof:* The writer of METADATA, the reader of `email` messages as far as those files need it, and the form that an upload fills. Files: `MetadataProps.v`.

*Theorems:* `C128_lines_refuted`.

### C129 Authors and maintainers are published

The metadata of a project names its authors and its maintainers with their addresses.

*Status:* partial. names and addresses of authors proved; REFUTED for maintainers and for who has which address. 

*Model and proof:* The writer of METADATA, the reader of `email` messages as far as those files need it, and the form that an upload fills. Files: `MetadataProps.v`.

*Theorems:* `C129_authors_partial`, `C129_maintainers_refuted`, `C129_address_refuted`.

### C130 Uploads name their python version

The python version that is sent with a wheel is the one in the name of the wheel.

*Status:* partial. proved for wheels without a build number; REFUTED with one. 

*Model and proof:* The writer of METADATA, the reader of `email` messages as far as those files need it, and the form that an upload fills. Files: `MetadataProps.v`.

*Theorems:* `C130_upload_partial`, `C130_source`, `C130_fields`, `C130_build_refuted`.

### C131 Git packages come from the requested repository and branch

In every history of requests, a git checkout that is handed out holds the files of the requested repository and branch.

*Status:* partial. proved when no directory of a request is inside that of another; REFUTED: a branch makes later requests for the default branch fail, and a branch of one repository can share the directory of another repository or of another port. 

*Model and proof:* Remote repositories are maps from branches to commits; the workspace is a map from directories to checkouts; `git` commands are functions that may fail. Files: `GitProps.v`.

*Theorems:* `C131_right_partial`, `C131_order_refuted`, `C131_shared_refuted`.

### C132 Branches are brought up to date

Requesting a branch that was checked out before gives the present state of the branch.

*Status:* partial. REFUTED: with the layout of git no checkout is ever updated. 

*Model and proof:* Remote repositories are maps from branches to commits; the workspace is a map from directories to checkouts; `git` commands are functions that may fail. Files: `GitProps.v`.

*Theorems:* `C132_stale_refuted`, `C132_pulled`.

### C133 A failed clone leaves nothing behind

When git fails, no checkout is left behind and nothing else changes, apart from empty directories above it.

*Status:* proved. 

*Model and proof:* Remote repositories are maps from branches to commits; the workspace is a map from directories to checkouts; `git` commands are functions that may fail. Files: `GitProps.v`.

*Theorems:* `C133_nothing_left`.

### C134 Git urls mean what they say

The url and the branch that are given to git are those that were written in the requirement.

*Status:* partial. proved for urls without at signs; REFUTED: other schemes get port 443, users are taken for servers, capital letters are lost. 

*Model and proof:* Remote repositories are maps from branches to commits; the workspace is a map from directories to checkouts; `git` commands are functions that may fail. Files: `GitProps.v`.

*Theorems:* `C134_url_partial`, `C134_port_refuted`, `C134_user_refuted`, `C134_case_refuted`.

### C135 Checkouts stay in the workspace

A git checkout is inside the directory of its package in the workspace.

*Status:* partial. proved without dot-dot and absolute branches; REFUTED with them. 

*Model and proof:* Remote repositories are maps from branches to commits; the workspace is a map from directories to checkouts; `git` commands are functions that may fail. Files: `GitProps.v`.

*Theorems:* `C135_inside_partial`, `C135_outside_refuted`.

### C136 Packages of project groups are found

A package that is a project of a project group in a git repository is found.

*Status:* partial. REFUTED: always an error. 

*Model and proof:* Remote repositories are maps from branches to commits; the workspace is a map from directories to checkouts; `git` commands are functions that may fail. Files: `GitProps.v`.

*Theorems:* `C136_group_refuted`.

### C137 Wheels that pkm builds install

A wheel that pkm builds of a project can be opened by pkm, every file in it has the hash that its RECORD says, and after an installation the site has exactly the files of the packages and of the dist-info directory.

*Status:* partial. proved for every project whose package directories do not end in .dist-info, with the files of the site; REFUTED when one does: the wheel is built but cannot be opened. 

*Model and proof:* The builders work on trees of files; the archive formats, the texts of METADATA, entry points and pyproject.toml and the hash are parameters of the theorems (they are modelled elsewhere). Copies, listings and created directories are as in `shutil` and `pathlib`. Files: `BuilderProps.v`.

*Theorems:* `C137_verifies_partial`, `C137_installs_partial`, `C137_dist_info_refuted`.

### C138 A wheel holds the code of the project

Every package of the project is in the wheel as it is in the project, without caches, and besides the packages only the dist-info directory is in it; building again gives the same wheel.

*Status:* partial. the packages are copied exactly, and building again is proved to give the same for projects with a src directory; REFUTED: modules that are single files are left out, and without a src directory everything is packed, also earlier results. 

*Model and proof:* The builders work on trees of files; the archive formats, the texts of METADATA, entry points and pyproject.toml and the hash are parameters of the theorems (they are modelled elsewhere). Copies, listings and created directories are as in `shutil` and `pathlib`. Files: `BuilderProps.v`.

*Theorems:* `C138_contents`, `C138_again_partial`, `C138_modules_refuted`, `C138_flat_refuted`.

### C139 Builds do not depend on the working directory

The wheel of a project is the same from whatever directory pkm runs.

*Status:* partial. proved without files of texts; REFUTED with them: the description is lost or the build fails. 

*Model and proof:* The builders work on trees of files; the archive formats, the texts of METADATA, entry points and pyproject.toml and the hash are parameters of the theorems (they are modelled elsewhere). Copies, listings and created directories are as in `shutil` and `pathlib`. Files: `BuilderProps.v`.

*Theorems:* `C139_anywhere_partial`, `C139_readme_refuted`, `C139_license_refuted`.

### C140 A source distribution gives the same wheel

The wheel that is built from the source distribution of a project has the same files as the one that is built from the project.

*Status:* partial. proved for found packages and no files of texts; REFUTED for listed packages below other directories and for files of texts, which are not in the archive. 

*Model and proof:* The builders work on trees of files; the archive formats, the texts of METADATA, entry points and pyproject.toml and the hash are parameters of the theorems (they are modelled elsewhere). Copies, listings and created directories are as in `shutil` and `pathlib`. Files: `BuilderProps.v`.

*Theorems:* `C140_sdist_partial`, `C140_nested_refuted`, `C140_license_refuted`, `C140_readme_refuted`.

### C141 The tag of a wheel fits the interpreters

Every interpreter that the python requirement of a project allows accepts the tag in the name of its wheel.

*Status:* partial. proved within the major version of the lower bound; REFUTED across major versions, and for a requirement with only an upper bound. 

*Model and proof:* The builders work on trees of files; the archive formats, the texts of METADATA, entry points and pyproject.toml and the hash are parameters of the theorems (they are modelled elsewhere). Copies, listings and created directories are as in `shutil` and `pathlib`. Files: `BuilderProps.v`.

*Theorems:* `C141_accepted_partial`, `C141_unbounded_partial`, `C141_major_refuted`, `C141_upper_refuted`.

### C142 The readme of a project is its description

When the readme field names a file, the text of the file is the description; what is written to pyproject.toml is read as the same value.

*Status:* partial. proved for tables; REFUTED for the plain name of a file, which becomes the description itself. 

*Model and proof:* The builders work on trees of files; the archive formats, the texts of METADATA, entry points and pyproject.toml and the hash are parameters of the theorems (they are modelled elsewhere). Copies, listings and created directories are as in `shutil` and `pathlib`. Files: `BuilderProps.v`.

*Theorems:* `C142_round`, `C142_file`, `C142_name_refuted`.

### C143 A file url gives what is at its path

A requirement with a file url gives the project, wheel or source distribution that is at the path of the url.

*Status:* partial. proved for paths of lower-case letters, digits and the signs of plain_path; REFUTED with capital letters, which are made small: another directory is used or none is found. 

*Model and proof:* The disk is a map from paths to files; urls, versions and names are parsed by the models of the parsers. The readers of pyproject.toml and the compatibility of tags are parameters of the theorems. Files: `LocalProps.v`.

*Theorems:* `C143_none`, `C143_place_partial`, `C143_project_partial`, `C143_wheel_partial`, `C143_case_refuted`.

### C144 A file url gives the requested package

The package that a file url gives has the name that was requested, and its file exists.

*Status:* partial. REFUTED: the name of the project is not compared with the request, and a wheel that does not exist is a package. 

*Model and proof:* The disk is a map from paths to files; urls, versions and names are parsed by the models of the parsers. The readers of pyproject.toml and the compatibility of tags are parameters of the theorems. Files: `LocalProps.v`.

*Theorems:* `C144_name_refuted`, `C144_missing_refuted`.

### C145 A directory repository offers exactly its distributions

Every distribution file in the directory is a package of the repository under its name, once, and a request is answered with exactly the packages of that name that the requirement allows and the environment can use, newest first.

*Status:* proved. 

*Model and proof:* The disk is a map from paths to files; urls, versions and names are parsed by the models of the parsers. The readers of pyproject.toml and the compatibility of tags are parameters of the theorems. Files: `LocalProps.v`.

*Theorems:* `C145_every`, `C145_group`, `C145_single`, `C145_only`, `C145_answer`.

### C146 Any spelling of a name finds the package in a directory

A package of a directory repository is found by every spelling of its name that the packaging rules treat as equal.

*Status:* partial. proved for the name of the file with dashes; REFUTED for underscores, dots and capital letters. 

*Model and proof:* The disk is a map from paths to files; urls, versions and names are parsed by the models of the parsers. The readers of pyproject.toml and the compatibility of tags are parameters of the theorems. Files: `LocalProps.v`.

*Theorems:* `C146_found_partial`, `C146_spelling_refuted`.

### C147 A stray file does not spoil a directory repository

A directory repository can be used whatever other files are in the directory.

*Status:* partial. proved when every distribution file has a name with a dash; REFUTED: a file named backup.whl makes the repository fail with IndexError. 

*Model and proof:* The disk is a map from paths to files; urls, versions and names are parsed by the models of the parsers. The readers of pyproject.toml and the compatibility of tags are parameters of the theorems. Files: `LocalProps.v`.

*Theorems:* `C147_usable_partial`, `C147_spoiled_refuted`.

### C148 The name of a distribution file gives its name and version

The name and the version of a package are read from the name of its distribution file as the builder wrote them.

*Status:* partial. proved for wheels, and for source distributions without a local label; REFUTED: a local label swallows .tar.gz, and a dash in a name ends it. 

*Model and proof:* The disk is a map from paths to files; urls, versions and names are parsed by the models of the parsers. The readers of pyproject.toml and the compatibility of tags are parameters of the theorems. Files: `LocalProps.v`.

*Theorems:* `C148_wheel`, `C148_sdist_partial`, `C148_local_refuted`, `C148_dash_refuted`.

### C149 A repository offers only packages that exist

Every package that a directory repository offers is a distribution or a project in it.

*Status:* partial. REFUTED: a directory without pyproject.toml gives a package with the name of the directory; requirements with a lower bound never choose it. 

*Model and proof:* The disk is a map from paths to files; urls, versions and names are parsed by the models of the parsers. The readers of pyproject.toml and the compatibility of tags are parameters of the theorems. Files: `LocalProps.v`.

*Theorems:* `C149_made_up_refuted`, `C149_bounds_partial`.

### C150 The dependencies of packages on the disk are known

The dependencies of a package of a directory repository or a file url are those of its metadata.

*Status:* partial. proved for projects; REFUTED for all distribution files, whose dependencies end in AttributeError. 

*Model and proof:* The disk is a map from paths to files; urls, versions and names are parsed by the models of the parsers. The readers of pyproject.toml and the compatibility of tags are parameters of the theorems. Files: `LocalProps.v`.

*Theorems:* `C150_project`, `C150_distribution_refuted`.

### C151 A plain url means the file behind it

A requirement with the url of a distribution file gives one package with the requested name whose file is downloaded from exactly this url.

*Status:* partial. proved for urls that are in small letters; REFUTED with capital letters, which are lost. 

*Model and proof:* The disk is a map from paths to files; urls, versions and names are parsed by the models of the parsers. The readers of pyproject.toml and the compatibility of tags are parameters of the theorems. Files: `LocalProps.v`.

*Theorems:* `C151_one_partial`, `C151_none`, `C151_case_refuted`.

### C152 Adding packages leaves the others alone

An installation that can be met by adding packages leaves every installed package as it is, and no installation removes a package that was there before.

*Status:* partial. proved for installations that can be met by adding packages; REFUTED otherwise: packages that nobody requested and nobody needs are removed. 

*Model and proof:* The planner is modelled with the resolver and the repository as parameters; what the theorems need of the resolver is what C106 shows of it, and the samples and refutations run the resolver of ResolveModel. Files: `PlanProps.v`.

*Theorems:* `C152_stay_partial`, `C152_removed_refuted`.

### C153 Installing does not break what is installed

When all requests of an environment are met, with everything that the requested packages need, then after an installation the new requests and all earlier ones that were not replaced are met as well.

*Status:* partial. proved without overrides and updates, for resolvers whose answers work together (C106) and when nobody uses the name installation-request; REFUTED with a list of updates, which leaves the requests of the others aside. 

*Model and proof:* The planner is modelled with the resolver and the repository as parameters; what the theorems need of the resolver is what C106 shows of it, and the samples and refutations run the resolver of ResolveModel. Files: `PlanProps.v`.

*Theorems:* `C153_healthy_partial`, `C153_prefers`, `C153_updates_refuted`.

### C154 What is asked for is there

After an installation every request has a package of its name in an allowed version, and is recorded as a request of the user.

*Status:* partial. proved for requests with distinct names, without overrides; REFUTED: of two requests for one package only the last counts, and a package named installation-request is silently not installed. 

*Model and proof:* The planner is modelled with the resolver and the repository as parameters; what the theorems need of the resolver is what C106 shows of it, and the samples and refutations run the resolver of ResolveModel. Files: `PlanProps.v`.

*Theorems:* `C154_asked_partial`, `C154_recorded`, `C154_twice_refuted`, `C154_reserved_refuted`.

### C155 Overrides are obeyed

After an installation with overrides, every requirement on an overridden package is met as the override says.

*Status:* partial. proved for installations that can be met by adding packages; REFUTED otherwise: the second attempt forgets the overrides. 

*Model and proof:* The planner is modelled with the resolver and the repository as parameters; what the theorems need of the resolver is what C106 shows of it, and the samples and refutations run the resolver of ResolveModel. Files: `PlanProps.v`.

*Theorems:* `C155_added_partial`, `C155_forgotten_refuted`.

### C156 Packages that are to be updated stay installed

A requested package that an installation may update is installed afterwards, in some version.

*Status:* partial. proved for updated packages that are requested again; REFUTED for others, which are removed together with their request. 

*Model and proof:* The planner is modelled with the resolver and the repository as parameters; what the theorems need of the resolver is what C106 shows of it, and the samples and refutations run the resolver of ResolveModel. Files: `PlanProps.v`.

*Theorems:* `C156_asked_partial`, `C156_vanishes_refuted`.

### C157 Packages without a version are installed in their newest minor version

A new package that is requested without a version is installed in a version of the newest epoch, major and minor number that the repository has.

*Status:* partial. proved for packages that are not installed, for installations that can be met by adding packages; otherwise the resolver decides. 

*Model and proof:* The planner is modelled with the resolver and the repository as parameters; what the theorems need of the resolver is what C106 shows of it, and the samples and refutations run the resolver of ResolveModel. Files: `PlanProps.v`.

*Theorems:* `C157_newest_partial`.

### C158 A package that does not exist is reported as such

A request for a package that no repository has ends with the report that there is no solution.

*Status:* partial. proved for requests with a version; REFUTED for a name alone: max() of nothing is a ValueError. 

*Model and proof:* The planner is modelled with the resolver and the repository as parameters; what the theorems need of the resolver is what C106 shows of it, and the samples and refutations run the resolver of ResolveModel. Files: `PlanProps.v`.

*Theorems:* `C158_specified_partial`, `C158_unknown_refuted`.

### C159 Packages can be removed from every environment

Removing packages works in every environment; what stays was installed before, and the remaining requests and everything that they need and that was installed is met.

*Status:* partial. proved when the resolver answers; REFUTED: in an environment with a version conflict or a package for another python nothing can be removed. 

*Model and proof:* The planner is modelled with the resolver and the repository as parameters; what the theorems need of the resolver is what C106 shows of it, and the samples and refutations run the resolver of ResolveModel. Files: `PlanProps.v`.

*Theorems:* `C159_kept_partial`, `C159_broken_refuted`.

### C160 The requirement that is written down for a new dependency

The requirement that pkm writes for a newly installed dependency allows the installed version, and no version with another major number.

*Status:* partial. proved for final versions without post release and local label; REFUTED for these, which allow the next major version. 

*Model and proof:* The planner is modelled with the resolver and the repository as parameters; what the theorems need of the resolver is what C106 shows of it, and the samples and refutations run the resolver of ResolveModel. Files: `PlanProps.v`.

*Theorems:* `C160_self`, `C160_major_partial`, `C160_post_refuted`, `C160_local_refuted`.

### C161 Updates reach packages under every spelling of their name

A package that is named in the list of updates is not held at its installed version, whichever spelling of its name is given.

*Status:* partial. proved for normalised keys; REFUTED for names as they are written: pkm does not update itself, because pkm-cli is compared with pkm_cli. 

*Model and proof:* The planner is modelled with the resolver and the repository as parameters; what the theorems need of the resolver is what C106 shows of it, and the samples and refutations run the resolver of ResolveModel. Files: `PlanProps.v`.

*Theorems:* `C161_keys_partial`, `C161_self_update_refuted`.

### C162 Every file of a wheel arrives

After a wheel is installed, each of its files is at the place that belongs to it (the site, or the directory of its part of the data directory) with its content.

*Status:* partial. proved for paths that nothing else of the same installation is put at or above; REFUTED for wheels that have a file for the same path twice. 

*Model and proof:* An extracted wheel is a tree; the installation is the sequence of copies, launchers, compiled files and records of the code, with a budget of system calls after which the next one fails. `compileall`, `configparser` and the hash are parameters of the theorems, and the order in which a set is iterated over is any. Each step is shown to be a frame: it changes its own paths only. Files: `WheelProps.v`.

*Theorems:* `C162_placed_partial`, `C162_twice_refuted`.

### C163 The RECORD of an installed wheel is complete

Every file that the installation of a wheel has created or changed is listed in the RECORD of the package.

*Status:* partial. proved for all files but those that pkm writes into the dist-info directory; REFUTED for these (INSTALLER, REQUESTED, INSTALLATION_MODE are not listed). 

*Model and proof:* An extracted wheel is a tree; the installation is the sequence of copies, launchers, compiled files and records of the code, with a budget of system calls after which the next one fails. `compileall`, `configparser` and the hash are parameters of the theorems, and the order in which a set is iterated over is any. Each step is shown to be a frame: it changes its own paths only. Files: `WheelProps.v`.

*Theorems:* `C163_recorded_partial`, `C163_complete_partial`, `C163_installer_refuted`.

### C164 Recorded hashes are right

Every hash and length in the RECORD of a freshly installed wheel is that of the file on the disk.

*Status:* partial. proved when there was no RECORD before, for files the wheel's RECORD does not mention and for its verified files; REFUTED for compiled files that the wheel ships: they are overwritten but keep the old hash. 

*Model and proof:* An extracted wheel is a tree; the installation is the sequence of copies, launchers, compiled files and records of the code, with a budget of system calls after which the next one fails. `compileall`, `configparser` and the hash are parameters of the theorems, and the order in which a set is iterated over is any. Each step is shown to be a frame: it changes its own paths only. Files: `WheelProps.v`.

*Theorems:* `C164_computed_partial`, `C164_verified_partial`, `C164_compiled_refuted`.

### C165 Installing a wheel leaves everything else alone

An installation changes no file and removes no directory besides the paths of the wheel's files, its launchers, its compiled files and the files of its dist-info directory.

*Status:* proved. 

*Model and proof:* An extracted wheel is a tree; the installation is the sequence of copies, launchers, compiled files and records of the code, with a budget of system calls after which the next one fails. `compileall`, `configparser` and the hash are parameters of the theorems, and the order in which a set is iterated over is any. Each step is shown to be a frame: it changes its own paths only. Files: `WheelProps.v`.

*Theorems:* `C165_untouched`, `C165_new_files`.

### C166 Removing a wheel undoes its installation

When a wheel is installed and then removed, all files and directories are as they were before.

*Status:* partial. files and the directories they are in are proved to return when nothing of the package was there and others have no compiled files in its directories; REFUTED for files that are overwritten, for the directory of scripts and for empty directories. 

*Model and proof:* An extracted wheel is a tree; the installation is the sequence of copies, launchers, compiled files and records of the code, with a budget of system calls after which the next one fails. `compileall`, `configparser` and the hash are parameters of the theorems, and the order in which a set is iterated over is any. Each step is shown to be a frame: it changes its own paths only. Files: `WheelProps.v`.

*Theorems:* `C166_files_partial`, `C166_directories_partial`, `C166_no_new_directories_partial`, `C166_overwritten_refuted`, `C166_scripts_directory_refuted`, `C166_empty_directory_refuted`.

### C167 A failed installation of a wheel leaves nothing behind

A wheel whose files do not match its RECORD is refused before anything is written; if any step fails later, everything is as it was before.

*Status:* partial. the refusal is proved for all wheels, the return for failures while files are copied (no data directory, iteration orders that meet content first); REFUTED later: RECORD and directories stay, a script that was there is lost. 

*Model and proof:* An extracted wheel is a tree; the installation is the sequence of copies, launchers, compiled files and records of the code, with a budget of system calls after which the next one fails. `compileall`, `configparser` and the hash are parameters of the theorems, and the order in which a set is iterated over is any. Each step is shown to be a frame: it changes its own paths only. Files: `WheelProps.v`.

*Theorems:* `C167_mismatch`, `C167_copy_partial`, `C167_left_behind_refuted`, `C167_script_lost_refuted`.

### C168 Installing over an existing RECORD

When a package is installed where a RECORD of it exists already, the result lists each file once.

*Status:* partial. REFUTED: entries are doubled, and a RECORD with an entry without hash is cut off; proved: the old entries stay in front. 

*Model and proof:* An extracted wheel is a tree; the installation is the sequence of copies, launchers, compiled files and records of the code, with a budget of system calls after which the next one fails. `compileall`, `configparser` and the hash are parameters of the theorems, and the order in which a set is iterated over is any. Each step is shown to be a frame: it changes its own paths only. Files: `WheelProps.v`.

*Theorems:* `C168_kept`, `C168_twice_refuted`, `C168_foreign_record_refuted`.

### C169 Scripts get the interpreter of the environment

A script of a wheel whose first line is #!python or #!pythonw starts with the interpreter of the environment after the installation, and the rest of it, as well as other files, is unchanged.

*Status:* partial. proved for files directly in the directory of scripts that nothing else is put at; REFUTED for scripts in directories below. 

*Model and proof:* An extracted wheel is a tree; the installation is the sequence of copies, launchers, compiled files and records of the code, with a budget of system calls after which the next one fails. `compileall`, `configparser` and the hash are parameters of the theorems, and the order in which a set is iterated over is any. Each step is shown to be a frame: it changes its own paths only. Files: `WheelProps.v`.

*Theorems:* `C169_scripts_partial`, `C169_others_partial`, `C169_nested_refuted`.

### C170 Launchers run the object of their entry point

Each entry point of console_scripts and gui_scripts has a launcher in the directory for scripts that runs the object it names with the interpreter of the environment; one without an object cannot be installed.

*Status:* partial. proved for launchers whose place no other launcher and no compiled file takes; REFUTED for two entry points of one name in console_scripts and gui_scripts: the launcher of the first is overwritten; missing: launchers at a path where a compiled file is put. 

*Model and proof:* An extracted wheel is a tree; the installation is the sequence of copies, launchers, compiled files and records of the code, with a budget of system calls after which the next one fails. `compileall`, `configparser` and the hash are parameters of the theorems, and the order in which a set is iterated over is any. Each step is shown to be a frame: it changes its own paths only. Files: `WheelProps.v`.

*Theorems:* `C170_launchers_partial`, `C170_reference`, `C170_same_name_refuted`.

### C171 The parts of the data directory

Every part of the data directory of an installed wheel is a known one, and all parts that the standard names can be installed.

*Status:* partial. the first half is proved; REFUTED for headers, which the standard names. 

*Model and proof:* An extracted wheel is a tree; the installation is the sequence of copies, launchers, compiled files and records of the code, with a budget of system calls after which the next one fails. `compileall`, `configparser` and the hash are parameters of the theorems, and the order in which a set is iterated over is any. Each step is shown to be a frame: it changes its own paths only. Files: `WheelProps.v`.

*Theorems:* `C171_known_parts`, `C171_headers_refuted`.

### C172 Only wheels of version 1 are installed

A wheel is installed only if the major number of its Wheel-Version is 1, and into purelib exactly if Root-Is-Purelib is absent or true; every version 1 can be installed.

*Status:* partial. the first two parts are proved; REFUTED for Wheel-Version: 1, which is an IndexError. 

*Model and proof:* An extracted wheel is a tree; the installation is the sequence of copies, launchers, compiled files and records of the code, with a budget of system calls after which the next one fails. `compileall`, `configparser` and the hash are parameters of the theorems, and the order in which a set is iterated over is any. Each step is shown to be a frame: it changes its own paths only. Files: `WheelProps.v`.

*Theorems:* `C172_version`, `C172_short_refuted`.

### C173 The subdirectory of the own platform

A conda channel is asked for the subdirectory that conda uses for the operating system, the processor and the bits of the interpreter, and never for the one of another system.

*Status:* partial. that no other system is asked for is proved; REFUTED for machines named arm64 and i686, which are not known. 

*Model and proof:* The index of a channel is a list of entries, fetched by a parameter of the theorems; versions and requirements are parsed by the models of the parsers, tags are scored by the model of tags. The meaning of a star is given by an inductive relation. Files: `CondaProps.v`.

*Theorems:* `C173_subdir_partial`, `C173_own_platform`, `C173_apple_silicon_refuted`, `C173_i686_refuted`.

### C174 Packages of a channel are found

A request to a channel is answered by exactly the versions the channel has for the platform and the request allows, each once and with all of its files.

*Status:* partial. proved for the table of older files of the subdirectory of the platform; REFUTED for noarch packages and for files of the newer format. 

*Model and proof:* The index of a channel is a list of entries, fetched by a parameter of the theorems; versions and requirements are parsed by the models of the parsers, tags are scored by the model of tags. The meaning of a star is given by an inductive relation. Files: `CondaProps.v`.

*Theorems:* `C174_offered_partial`, `C174_noarch_refuted`, `C174_conda_files_refuted`.

### C175 Version requirements of conda mean what conda says

A requirement like 1.2.* allows exactly the versions that begin with 1.2, a list of alternatives exactly what one of them allows, and bounds are all respected.

*Status:* partial. proved for series of final versions and alternatives other than *; REFUTED: 1.2.* allows 1.3a1, 2.7* refuses 2.7.18, what follows 1.1.1g is not read, 1.8|* is an AssertionError. 

*Model and proof:* The index of a channel is a list of entries, fetched by a parameter of the theorems; versions and requirements are parsed by the models of the parsers, tags are scored by the model of tags. The meaning of a star is given by an inductive relation. Files: `CondaProps.v`.

*Theorems:* `C175_series_partial`, `C175_alternatives_partial`, `C175_next_pre_release_refuted`, `C175_glued_star_refuted`, `C175_letter_refuted`, `C175_any_alternative_refuted`.

### C176 A build string selects the builds that follow it

A dependency with a build string is met by exactly the files whose build follows the pattern and whose version is the named one.

*Status:* partial. all builds that follow the pattern are proved to be found, and only builds that begin like it; REFUTED: h_1 also takes h_10, and if several builds follow the pattern the dependency finds none. 

*Model and proof:* The index of a channel is a list of entries, fetched by a parameter of the theorems; versions and requirements are parsed by the models of the parsers, tags are scored by the model of tags. The meaning of a star is given by an inductive relation. Files: `CondaProps.v`.

*Theorems:* `C176_builds_found`, `C176_none_found`, `C176_only_builds_partial`, `C176_longer_build_refuted`, `C176_several_builds_refuted`.

### C177 The chosen file runs on the interpreter

The file that is chosen for a package allows the version of python of the environment, and a file that allows it can be chosen.

*Status:* partial. the lower bound is proved; REFUTED: the upper bound is not looked at, a file for exactly one version makes the whole name fail, >3 is taken for python 4. 

*Model and proof:* The index of a channel is a list of entries, fetched by a parameter of the theorems; versions and requirements are parsed by the models of the parsers, tags are scored by the model of tags. The meaning of a star is given by an inductive relation. Files: `CondaProps.v`.

*Theorems:* `C177_not_newer_partial`, `C177_upper_bound_refuted`, `C177_exact_python_refuted`, `C177_above_refuted`.

### C178 The best file is chosen

Of the usable files of a package one with the best tag is chosen and among these one with the highest build number; if nothing is chosen nothing is usable.

*Status:* proved. 

*Model and proof:* The index of a channel is a list of entries, fetched by a parameter of the theorems; versions and requirements are parsed by the models of the parsers, tags are scored by the model of tags. The meaning of a star is given by an inductive relation. Files: `CondaProps.v`.

*Theorems:* `C178_best`, `C178_nothing_usable`.

### C179 A file is found by its url

The requirement that a dependency with a build string is turned into is met by the very file it was made for.

*Status:* partial. proved for urls without capital letters; REFUTED with capital letters, which are made small. 

*Model and proof:* The index of a channel is a list of entries, fetched by a parameter of the theorems; versions and requirements are parsed by the models of the parsers, tags are scored by the model of tags. The meaning of a star is given by an inductive relation. Files: `CondaProps.v`.

*Theorems:* `C179_found_partial`, `C179_capitals_refuted`.

### C180 Newer versions of conda packages come first

The versions a channel is asked for come with the newest first.

*Status:* partial. proved for versions without local label; REFUTED for versions that differ in a letter (1.1.1g, 1.1.1k), which are read as equal. 

*Model and proof:* The index of a channel is a list of entries, fetched by a parameter of the theorems; versions and requirements are parsed by the models of the parsers, tags are scored by the model of tags. The meaning of a star is given by an inductive relation. Files: `CondaProps.v`.

*Theorems:* `C180_newest_first_partial`, `C180_letters_refuted`.

### C181 An installed dependency is written down as it was asked for

After a successful `pkm install x` in a project, pyproject.toml lists each requested dependency once, as it was asked for or, if no version was named, with a range that begins at the installed version, and every other dependency as before.

*Status:* partial. proved for requests with a version, and for the range of the others; REFUTED: a request without version loses its extras, and one whose marker does not hold fails after the installation. 

*Model and proof:* The environment, the lock file and the installation of the project are parameters of the theorems; the state is the configuration in memory, the one in the file, the dependencies the project has cached, the environment and the lock file. Cipher and TOML are parameters with the laws that are used; an example shows a cipher and a format that have them. Modules are a list of names. Files: `ControllerProps.v`.

*Theorems:* `C181_written_partial`, `C181_extras_refuted`, `C181_marker_refuted`.

### C182 A failed installation leaves the project as it was

If the installation of new dependencies fails, the lists of dependencies, pyproject.toml and the lock file are as before, and the failed request does not influence later commands.

*Status:* partial. the lists are proved to be as before, and the files if the lock file can be written; REFUTED: the lock file fails after pyproject.toml was written, the failed request is remembered, a new group stays as an empty one. 

*Model and proof:* The environment, the lock file and the installation of the project are parameters of the theorems; the state is the configuration in memory, the one in the file, the dependencies the project has cached, the environment and the lock file. Cipher and TOML are parameters with the laws that are used; an example shows a cipher and a format that have them. Modules are a list of names. Files: `ControllerProps.v`.

*Theorems:* `C182_lists`, `C182_file_partial`, `C182_lock_refuted`, `C182_remembered_refuted`, `C182_group_refuted`.

### C183 A removed dependency is gone from all lists

After a successful removal exactly the named packages are missing from the dependencies and from every group; a removal that fails changes nothing.

*Status:* partial. the first half is proved; REFUTED: after a failed removal the dependency is gone from the object in memory. 

*Model and proof:* The environment, the lock file and the installation of the project are parameters of the theorems; the state is the configuration in memory, the one in the file, the dependencies the project has cached, the environment and the lock file. Cipher and TOML are parameters with the laws that are used; an example shows a cipher and a format that have them. Modules are a list of names. Files: `ControllerProps.v`.

*Theorems:* `C183_removed`, `C183_file_partial`, `C183_memory_refuted`.

### C184 New dependencies are installed together with the old

The project is installed with all of its dependencies and the new ones, each time.

*Status:* partial. proved for the first request; REFUTED for the second one by the same object, which does not see its own dependency. 

*Model and proof:* The environment, the lock file and the installation of the project are parameters of the theorems; the state is the configuration in memory, the one in the file, the dependencies the project has cached, the environment and the lock file. Cipher and TOML are parameters with the laws that are used; an example shows a cipher and a format that have them. Modules are a list of names. Files: `ControllerProps.v`.

*Theorems:* `C184_installed_partial`, `C184_again_refuted`.

### C185 A publication sends the built files of the version

A successful publication sends every file that was built for the version, each once, with the present code; one that broke off can be completed.

*Status:* partial. what is sent is proved to be what is in the directory of the version; REFUTED: files built from older code are sent, and a publication that broke off cannot be completed. 

*Model and proof:* The environment, the lock file and the installation of the project are parameters of the theorems; the state is the configuration in memory, the one in the file, the dependencies the project has cached, the environment and the lock file. Cipher and TOML are parameters with the laws that are used; an example shows a cipher and a format that have them. Modules are a list of names. Files: `ControllerProps.v`.

*Theorems:* `C185_sent_partial`, `C185_stale_refuted`, `C185_resumed_refuted`.

### C186 Stored credentials are kept and used

Credentials that were stored are found again with the same password and with no other; storing or forgetting the ones of a repository leaves the others alone; they are used for the next publication.

*Status:* partial. the first two parts are proved; REFUTED: two open stores lose the changes of each other, and what is stored is never used. 

*Model and proof:* The environment, the lock file and the installation of the project are parameters of the theorems; the state is the configuration in memory, the one in the file, the dependencies the project has cached, the environment and the lock file. Cipher and TOML are parameters with the laws that are used; an example shows a cipher and a format that have them. Modules are a list of names. Files: `ControllerProps.v`.

*Theorems:* `C186_kept`, `C186_forgotten`, `C186_password`, `C186_lost_refuted`, `C186_used_refuted`.

### C187 Tasks attached to a command run around it

A task in tasks/commands/<command>/before.py runs before the command and one in after.py after its success; without them the command runs as if there were no tasks.

*Status:* partial. commands without tasks are proved to be undisturbed; REFUTED for all attached tasks: the command line that starts them names no module. 

*Model and proof:* The environment, the lock file and the installation of the project are parameters of the theorems; the state is the configuration in memory, the one in the file, the dependencies the project has cached, the environment and the lock file. Cipher and TOML are parameters with the laws that are used; an example shows a cipher and a format that have them. Modules are a list of names. Files: `ControllerProps.v`.

*Theorems:* `C187_plain`, `C187_attached`, `C187_before_refuted`, `C187_after_refuted`, `C187_executor_refuted`.

### C188 A task is found in the project or among the installed ones

The name of a task means the module of the project if there is one and otherwise the installed module pkm_tasks.<name>.

*Status:* partial. proved for tasks of the project and installed tasks without a dot; REFUTED for installed tasks with a dot. 

*Model and proof:* The environment, the lock file and the installation of the project are parameters of the theorems; the state is the configuration in memory, the one in the file, the dependencies the project has cached, the environment and the lock file. Cipher and TOML are parameters with the laws that are used; an example shows a cipher and a format that have them. Modules are a list of names. Files: `ControllerProps.v`.

*Theorems:* `C188_own`, `C188_found`, `C188_installed_partial`, `C188_dotted_refuted`.

### C189 A command runs on the nearest project, group, environment or zoo

Without options a command runs on the nearest directory, going up from the current one, that is something the command can be run on, a project before a group, that before an environment and that before a zoo; with -c exactly the given directory is used and with -g the site that is asked for; with -T no tasks are run.

*Status:* partial. the choice of the directory is proved; REFUTED: pkm without a command fails, the option --site is ignored and so is --without-tasks. 

*Model and proof:* The tree of files and the parser of command lines are the models of before; a context is a path and three flags, and `run` gives the callback that is called. What a directory can be used as is an inductive relation with a rank. `pkm install` gives the list of what it does and the exception that ends it; a name that is not defined is an exception. Files: `ContextProps.v`.

*Theorems:* `C189_nearest`, `C189_refused`, `C189_named`, `C189_global`, `C189_alone_refuted`, `C189_site_refuted`, `C189_without_tasks_refuted`.

### C190 pkm install installs the packages

`pkm install` binds the packages to the repository that is named, removes them if this is forced and then installs them; a request that is refused changes nothing.

*Status:* partial. proved for projects; REFUTED for environments: the packages are removed if that is forced and then the command fails; a refused request leaves its binding behind. 

*Model and proof:* The tree of files and the parser of command lines are the models of before; a context is a path and three flags, and `run` gives the callback that is called. What a directory can be used as is an inductive relation with a rank. `pkm install` gives the list of what it does and the exception that ends it; a name that is not defined is an exception. Files: `ContextProps.v`.

*Theorems:* `C190_project_partial`, `C190_bound`, `C190_environment_refuted`, `C190_app_refuted`.

### C191 The options of a function have names of their own

The keyword parameters of a function become options; no name belongs to two of them or to the help.

*Status:* partial. proved that no two options share a name; REFUTED: an option may take -h away from the help. 

*Model and proof:* A signature is what `inspect.getfullargspec` gives; a call binds parameters as Python does, with TypeError for what is missing or unknown. The commands go through the model of the parser of command lines, whose theorem that every declared argument has a value is used. `textwrap.dedent` is modelled line by line. Files: `MethodProps.v`.

*Theorems:* `C191_distinct`, `C191_named`, `C191_help_refuted`.

### C192 A function is called with what was given on the command line

A command line that is understood calls the function of the command, and each parameter has the value that was given for it or its own default.

*Status:* partial. proved for functions without *args whose names have no leading or double underscores; REFUTED for functions with *args, with required keywords only, with such names, with a parameter help, and False is read as true. 

*Model and proof:* A signature is what `inspect.getfullargspec` gives; a call binds parameters as Python does, with TypeError for what is missing or unknown. The commands go through the model of the parser of command lines, whose theorem that every declared argument has a value is used. `textwrap.dedent` is modelled line by line. Files: `MethodProps.v`.

*Theorems:* `C192_called_partial`, `C192_defaults`, `C192_read`, `C192_varargs_refuted`, `C192_required_refuted`, `C192_underscore_refuted`, `C192_bool_refuted`, `C192_help_refuted`.

### C193 The documentation of the parameters is found

For a function whose text documents its parameters, the help shows for each parameter its own text.

*Status:* partial. proved for texts whose lines share a margin; REFUTED for all texts that begin right after the quotes. 

*Model and proof:* A signature is what `inspect.getfullargspec` gives; a call binds parameters as Python does, with TypeError for what is missing or unknown. The commands go through the model of the parser of command lines, whose theorem that every declared argument has a value is used. `textwrap.dedent` is modelled line by line. Files: `MethodProps.v`.

*Theorems:* `C193_documented_partial`, `C193_first_line_refuted`.

### C194 A task gets the words it is given

The words without a name go to the parameters in order and the others to the parameter they name; words that do not fit are refused.

*Status:* partial. proved for words that fit the parameters; REFUTED: surplus words are dropped, names with dashes are not understood and False is read as true. 

*Model and proof:* A signature is what `inspect.getfullargspec` gives; a call binds parameters as Python does, with TypeError for what is missing or unknown. The commands go through the model of the parser of command lines, whose theorem that every declared argument has a value is used. `textwrap.dedent` is modelled line by line. Files: `MethodProps.v`.

*Theorems:* `C194_parsed_partial`, `C194_order`, `C194_called_partial`, `C194_surplus_refuted`, `C194_words_refuted`.

### C195 A page is read as it is written

The elements of a html page, their attributes and their texts are those that the page has.

*Status:* partial. proved for well nested pages, and which others are read; REFUTED for pages with elements that are not closed, and for texts with other elements in them. 

*Model and proof:* A page is the list of the events of the parser of Python. The pages that are read are characterised by the forest that is written and the elements that remain open; what is found is stated with the branches of the tree, and the loop with its stack is shown to walk them. The table and the repository use the models of versions and specifiers and their round trips; the sort is shown to be a permutation that is descending for the key. Files: `HtmlProps.v`.

*Theorems:* `C195_nested_partial`, `C195_read`, `C195_attributes`, `C195_text_partial`, `C195_void_refuted`, `C195_open_refuted`, `C195_text_refuted`.

### C196 Elements are found where they are

Looking for elements by a chain of conditions finds exactly the elements that satisfy the last condition and have the others among themselves and their ancestors, in this order, each once and in the order of the page.

*Status:* partial. proved that exactly the right elements are found; REFUTED: they are found from the last to the first. 

*Model and proof:* A page is the list of the events of the parser of Python. The pages that are read are characterised by the forest that is written and the elements that remain open; what is found is stated with the branches of the tree, and the loop with its stack is shown to walk them. The table and the repository use the models of versions and specifiers and their round trips; the sort is shown to be a permutation that is descending for the key. Files: `HtmlProps.v`.

*Theorems:* `C196_found`, `C196_along`, `C196_no_matchers`, `C196_order_refuted`.

### C197 The known versions of cuda are those of the page

The table of drivers is the one of the page of nvidia, or the one known before when that cannot be read, and the versions of cuda a machine can run are those that the table allows for its driver.

*Status:* partial. proved for rows of three cells, for unreadable pages and for tables that can be printed; REFUTED: a page without table erases what was known, a void element makes the page unreadable, without driver there is no repository, and the resource is looked for in a module that does not exist. 

*Model and proof:* A page is the list of the events of the parser of Python. The pages that are read are characterised by the forest that is written and the elements that remain open; what is found is stated with the branches of the tree, and the loop with its stack is shown to walk them. The table and the repository use the models of versions and specifiers and their round trips; the sort is shown to be a permutation that is descending for the key. Files: `TorchProps.v`.

*Theorems:* `C197_row`, `C197_backup`, `C197_remembered_partial`, `C197_known_partial`, `C197_compatible`, `C197_empty_refuted`, `C197_void_refuted`, `C197_driver_refuted`, `C197_module_refuted`.

### C198 The best build for this machine is offered first

Only builds that run on this machine are offered, all of them, and the newest for the newest cuda is the first.

*Status:* partial. proved which builds are offered and their order; REFUTED: cuda 9.2 is before 10.0, old builds for cuda are before new ones without label, cuda 11.0.3 has no builds, and a version that is not standard is an error. 

*Model and proof:* A page is the list of the events of the parser of Python. The pages that are read are characterised by the forest that is written and the elements that remain open; what is found is stated with the branches of the tree, and the loop with its stack is shown to walk them. The table and the repository use the models of versions and specifiers and their round trips; the sort is shown to be a permutation that is descending for the key. Files: `TorchProps.v`.

*Theorems:* `C198_answered`, `C198_all`, `C198_order`, `C198_cuda_partial`, `C198_cuda_refuted`, `C198_old_refuted`, `C198_patch_refuted`, `C198_named_refuted`.

### C199 The container of an application is found by its name

The container of a name is the one that the application with that name was installed in; all containers of an environment are listed.

*Status:* partial. proved for valid names; REFUTED: a package of the same name outside hides the container, and a name that ends with a dash has no container. 

*Model and proof:* An environment is the list of its installed packages with the key of the directory of each; a container is a package with the packages of its own site. Names are those of the model of names. The scripts of a container are functions of one file, of which the last of a name counts and of which none is defined when one has no valid name; `sys.path` and `PATH` are lists. The orphans of the report are compared with those that the model of installations removes. Files: `ContainerProps.v`.

*Theorems:* `C199_found_partial`, `C199_all`, `C199_hidden_refuted`, `C199_name_refuted`.

### C200 A container knows its application

The application of a container is the package that was installed in it on request, and its plugins are the other packages that were requested there.

*Status:* partial. proved for valid names without two separators in a row; REFUTED for two underscores and for applications whose name ends like a wrapper. 

*Model and proof:* An environment is the list of its installed packages with the key of the directory of each; a container is a package with the packages of its own site. Names are those of the model of names. The scripts of a container are functions of one file, of which the last of a name counts and of which none is defined when one has no valid name; `sys.path` and `PATH` are lists. The orphans of the report are compared with those that the model of installations removes. Files: `ContainerProps.v`.

*Theorems:* `C200_main_partial`, `C200_own`, `C200_plugins`, `C200_underscores_refuted`, `C200_suffix_refuted`.

### C201 An application is installed once

An application is installed in a container only if no container has it in a version that fits, and what is removed is the container that was named or the packages in it.

*Status:* partial. proved for names that are found; REFUTED: a container without its application raises AttributeError. 

*Model and proof:* An environment is the list of its installed packages with the key of the directory of each; a container is a package with the packages of its own site. Names are those of the model of names. The scripts of a container are functions of one file, of which the last of a name counts and of which none is defined when one has no valid name; `sys.path` and `PATH` are lists. The orphans of the report are compared with those that the model of installations removes. Files: `ContainerProps.v`.

*Theorems:* `C201_installed`, `C201_absent`, `C201_uninstalled`, `C201_broken_refuted`.

### C202 The scripts of a container run what they name

Each script that a container exposes calls the object that the script of the application refers to.

*Status:* partial. proved for names that give different functions; REFUTED for names that differ in a separator, begin with a digit or are keywords. 

*Model and proof:* An environment is the list of its installed packages with the key of the directory of each; a container is a package with the packages of its own site. Names are those of the model of names. The scripts of a container are functions of one file, of which the last of a name counts and of which none is defined when one has no valid name; `sys.path` and `PATH` are lists. The orphans of the report are compared with those that the model of installations removes. Files: `ContainerProps.v`.

*Theorems:* `C202_scripts_partial`, `C202_same_refuted`, `C202_digit_refuted`.

### C203 A container sees its own packages first

In a script of a container the packages and the commands of the container are found before those of the environment.

*Status:* partial. proved for sites without .pth files; REFUTED with .pth files, for known sites and for parts of other paths. 

*Model and proof:* An environment is the list of its installed packages with the key of the directory of each; a container is a package with the packages of its own site. Names are those of the model of names. The scripts of a container are functions of one file, of which the last of a name counts and of which none is defined when one has no valid name; `sys.path` and `PATH` are lists. The orphans of the report are compared with those that the model of installations removes. Files: `ContainerProps.v`.

*Theorems:* `C203_first_partial`, `C203_pth_refuted`, `C203_path_partial`, `C203_unset`, `C203_path_refuted`, `C203_known_refuted`.

### C204 The report tells what is missing and what is superfluous

The report of an environment has a line for each package outside of containers, says which of its dependencies are missing, and calls those orphans that would be removed as orphans.

*Status:* partial. proved what is reported; REFUTED: the orphans of the report are not those that are removed. 

*Model and proof:* An environment is the list of its installed packages with the key of the directory of each; a container is a package with the packages of its own site. Names are those of the model of names. The scripts of a container are functions of one file, of which the last of a name counts and of which none is defined when one has no valid name; `sys.path` and `PATH` are lists. The orphans of the report are compared with those that the model of installations removes. Files: `ContainerProps.v`.

*Theorems:* `C204_lines`, `C204_missing`, `C204_orphan`, `C204_removed_refuted`.

### C205 Listeners listen as long as their block

Inside of a block that listens, each method of a listener is called for the class it names, the listeners of other classes stay, and after the block everything is as before.

*Status:* partial. proved for nested blocks; REFUTED for blocks that overlap, as in threads, and for listeners added inside of a block. 

*Model and proof:* The registry of callbacks is an association list, and blocks that listen are functions on it, so that nesting is composition. Programs of nested operations are run with a state that has the calls of listeners and the generators that are suspended; the behaviour of each listener is a parameter. The loop of `monitored_run` is over the observations of the pipe and of the process. Files: `MonitorProps.v`.

*Theorems:* `C205_restored_partial`, `C205_told`, `C205_others`, `C205_overlap_refuted`, `C205_added_refuted`.

### C206 A monitor does not change what is monitored

An operation ends with the result or the exception it has without monitors, whoever listens, and the listeners are called in the order: enter, what is inside, fail, leave.

*Status:* partial. proved for operations entered by with, with harmless and complete listeners; REFUTED: _Monitor.enter hides exceptions, a generator that handles one raises another, a listener to the end makes a notification fail. 

*Model and proof:* The registry of callbacks is an association list, and blocks that listen are functions on it, so that nesting is composition. Programs of nested operations are run with a state that has the calls of listeners and the generators that are suspended; the behaviour of each listener is a parameter. The loop of `monitored_run` is over the observations of the pipe and of the process. Files: `MonitorProps.v`.

*Theorems:* `C206_same_partial`, `C206_order`, `C206_enter_refuted`, `C206_handled_refuted`, `C206_notify_refuted`.

### C207 A listener around an operation is resumed once

A listener that is written as a generator is started before the operation, and after it is resumed or gets the exception, exactly once.

*Status:* partial. proved for operations that are not entered in themselves; REFUTED for these, and beside a listener to the end. 

*Model and proof:* The registry of callbacks is an association list, and blocks that listen are functions on it, so that nesting is composition. Programs of nested operations are run with a state that has the calls of listeners and the generators that are suspended; the behaviour of each listener is a parameter. The loop of `monitored_run` is over the observations of the pipe and of the process. Files: `MonitorProps.v`.

*Theorems:* `C207_resumed_partial`, `C207_around`, `C207_again_refuted`, `C207_beside_refuted`.

### C208 Every line of a process is reported

A process that is monitored reports each line it prints, in order and without the blanks around it, and then its end with its code.

*Status:* partial. proved when the process ends when it closes its output; REFUTED: else empty lines are reported that were never printed. 

*Model and proof:* The registry of callbacks is an association list, and blocks that listen are functions on it, so that nesting is composition. Programs of nested operations are run with a state that has the calls of listeners and the generators that are suspended; the behaviour of each listener is a parameter. The loop of `monitored_run` is over the observations of the pipe and of the process. Files: `MonitorProps.v`.

*Theorems:* `C208_lines`, `C208_exact_partial`, `C208_stripped`, `C208_closed_refuted`.

### C209 Every installed Python is found once, newest first

The interpreters of the machine are listed once for each executable, with its version, the newest first and independently of the order in which they were visited; an interpreter that does not work is skipped.

*Status:* partial. proved for interpreters that print two lines or fail; REFUTED: one that cannot be started or prints more, or a file in PATH, hides all. 

*Model and proof:* The run of an interpreter is a parameter (it cannot be started, fails, prints). The loop with the set of known executables is characterised by an invariant; the sort is the one of the model of indexes. The pattern of names is shown equal to its meaning. The text that is made from the chosen version goes through the model of the parser of specifiers. Files: `PythonsProps.v`.

*Theorems:* `C209_found_partial`, `C209_newest`, `C209_order_partial`, `C209_started_refuted`, `C209_chatty_refuted`, `C209_path_refuted`.

### C210 Which files count as Python

A file counts as an interpreter if it is executable and is named python, with a version and with the extension exe if there is one; they are looked for in PATH and below the search paths.

*Status:* partial. proved which names count; REFUTED: any sign may stand before exe, and below search paths only files named python are seen. 

*Model and proof:* The run of an interpreter is a parameter (it cannot be started, fails, prints). The loop with the set of known executables is characterised by an invariant; the sort is the one of the model of indexes. The pattern of names is shown equal to its meaning. The text that is made from the chosen version goes through the model of the parser of specifiers. Files: `PythonsProps.v`.

*Theorems:* `C210_names`, `C210_taken`, `C210_all`, `C210_path`, `C210_sign_refuted`, `C210_search_refuted`.

### C211 A new environment has the Python that was asked for

The interpreter of a new environment is the newest one that the specifier allows, and there is an error exactly when none is; who chooses a minor version gets an interpreter of this minor version.

*Status:* partial. proved that the newest allowed one is taken and what a chosen final version means; REFUTED: candidates of the next version are taken. 

*Model and proof:* The run of an interpreter is a parameter (it cannot be started, fails, prints). The loop with the set of known executables is characterised by an invariant; the sort is the one of the model of indexes. The pattern of names is shown equal to its meaning. The text that is made from the chosen version goes through the model of the parser of specifiers. Files: `PythonsProps.v`.

*Theorems:* `C211_newest`, `C211_none`, `C211_meaning`, `C211_same_minor_partial`, `C211_candidate_refuted`, `C211_chosen_candidate_refuted`.

### C212 The opposite of an exact requirement

For every version without local label, the inverse of a requirement of exactly this version allows exactly the versions without local label that the requirement does not allow, and the other way round.

*Status:* proved. the part of C09 that holds without restriction. 

*Model and proof:* These are the parts of the properties before that hold without restriction, stated on their own; model and proof are those of the property that the note names. Files: `SpecifierProps.v`.

*Theorems:* `C09_match`.

### C213 The search for orphans ends

Whatever the dependencies of the installed packages are, cycles included, the search for packages that nobody needs ends with an answer.

*Status:* proved. the part of C33 that holds without restriction. 

*Model and proof:* These are the parts of the properties before that hold without restriction, stated on their own; model and proof are those of the property that the note names. Files: `InstallProps.v`.

*Theorems:* `C33_orphans_end`.

### C214 A marker ends where the requirement goes on

A marker that is followed by a semicolon or a closing parenthesis is read up to there, is printed as it was written, and has the meaning of its text, whatever its atoms mean.

*Status:* proved. the part of C42 that holds without restriction. 

*Model and proof:* These are the parts of the properties before that hold without restriction, stated on their own; model and proof are those of the property that the note names. Files: `MarkerProps.v`.

*Theorems:* `C42_inside`.

### C215 Comparisons of texts in markers

An environment variable is compared with a text that is no version by the order of texts, and `in` and `not in` tell whether one text is a part of the other.

*Status:* proved. the part of C42 that holds without restriction. 

*Model and proof:* These are the parts of the properties before that hold without restriction, stated on their own; model and proof are those of the property that the note names. Files: `MarkerProps.v`.

*Theorems:* `C42_text_order`, `C42_in_atom`.

### C216 The dependencies of a project are its own and those of its groups

When the dependencies of a project can be computed, they begin with the mandatory ones as they are, and each further one comes from a dependency of an optional group.

*Status:* proved. the part of C65 that holds without restriction. 

*Model and proof:* These are the parts of the properties before that hold without restriction, stated on their own; model and proof are those of the property that the note names. Files: `ProjectProps.v`.

*Theorems:* `C65_dependencies`.

### C217 Cleaning works unless a file is in the way

Removing old builds of a project fails exactly if the directory for builds is a file.

*Status:* proved. the part of C66 that holds without restriction. 

*Model and proof:* These are the parts of the properties before that hold without restriction, stated on their own; model and proof are those of the property that the note names. Files: `ProjectProps.v`.

*Theorems:* `C66_total`.

### C218 The place of the environment of a project

The environment of a project is at the path that its configuration names, else in the zoo that it names under the name of the project, and the same for the configuration of its group if it has none; without any it is the directory .venv of the project.

*Status:* proved. the part of C67 that holds without restriction. 

*Model and proof:* These are the parts of the properties before that hold without restriction, stated on their own; model and proof are those of the property that the note names. Files: `ProjectProps.v`.

*Theorems:* `C67_place`.

### C219 The parent of a group

The parent of a group of projects is the one that its file names, and otherwise the group above that lists it.

*Status:* proved. the part of C69 that holds without restriction. 

*Model and proof:* These are the parts of the properties before that hold without restriction, stated on their own; model and proof are those of the property that the note names. Files: `ProjectProps.v`.

*Theorems:* `C69_parent`.

### C220 Arguments of commands get their names and values

An argument is known by its shortest long name in whatever order its names are declared; the fields of its value that are not given have their defaults, and without a default it is an error; an option that can be repeated gets all its values in order.

*Status:* proved. the part of C58 that holds without restriction. 

*Model and proof:* These are the parts of the properties before that hold without restriction, stated on their own; model and proof are those of the property that the note names. Files: `CliMoreProps.v`.

*Theorems:* `C58_field_name`, `C58_subfields`, `C58_repeated`.

### C221 The versions that the resolver sees

The resolver sees a standard version of a package exactly if the index holds it, and sees a pre-release only if the index holds nothing but pre-releases of the package.

*Status:* proved. the part of C108 that holds without restriction. 

*Model and proof:* These are the parts of the properties before that hold without restriction, stated on their own; model and proof are those of the property that the note names. Files: `ResolveProps.v`.

*Theorems:* `C108_visible`.

### C222 When an index of packages can be read

The answer of PyPI gives a list of packages exactly if the requirement of Python of each usable file can be read and, when there is something to offer, the description of the project too.

*Status:* proved. the part of C114 that holds without restriction. 

*Model and proof:* These are the parts of the properties before that hold without restriction, stated on their own; model and proof are those of the property that the note names. Files: `IndexProps.v`.

*Theorems:* `C114_fails_iff`.

### C223 The name of a wheel tells its version

The version of a wheel is the part of its file name after the first dash, and a wheel file is taken as the package of the name and version that it was built for.

*Status:* proved. the part of C115, C148 that holds without restriction. 

*Model and proof:* These are the parts of the properties before that hold without restriction, stated on their own; model and proof are those of the property that the note names. Files: `IndexProps.v`, `LocalProps.v`.

*Theorems:* `C115_wheel`, `C148_wheel`.

### C224 Downloads are kept inside of the workspace and apart

A download is kept below the workspace when no part of its url is `..`, and two urls that have a path are kept in different places unless their hashes collide.

*Status:* proved. the part of C119 that holds without restriction. 

*Model and proof:* These are the parts of the properties before that hold without restriction, stated on their own; model and proof are those of the property that the note names. Files: `IndexProps.v`.

*Theorems:* `C119_inside`, `C119_apart`.

### C225 A page of an index lists its links

The links of a page are those of its anchors, in their order, and the packages that are found are the versions that occur in file names and are allowed, each once and with all its files.

*Status:* proved. the part of C120 that holds without restriction. 

*Model and proof:* These are the parts of the properties before that hold without restriction, stated on their own; model and proof are those of the property that the note names. Files: `IndexProps.v`.

*Theorems:* `C120_files`, `C120_page`.

### C226 A record file is written if its records are complete

The record of a package is saved exactly if each of its entries has a file, a hash and a length; what is loaded has one entry for each row, with the file that is first in the row.

*Status:* proved. the part of C122, C123 that holds without restriction. 

*Model and proof:* These are the parts of the properties before that hold without restriction, stated on their own; model and proof are those of the property that the note names. Files: `RecordFileProps.v`.

*Theorems:* `C122_saved_iff`, `C123_rows`.

### C227 An upload sends every field

Every value of every metadata field is sent under the name that the index expects, and what is no wheel is sent as a source distribution.

*Status:* proved. the part of C130 that holds without restriction. 

*Model and proof:* These are the parts of the properties before that hold without restriction, stated on their own; model and proof are those of the property that the note names. Files: `MetadataProps.v`.

*Theorems:* `C130_source`, `C130_fields`.

### C228 The readme of a project

A value for a text or a file is written so that it is read back, and a readme given by the name of a file is the text of that file in the directory of the project.

*Status:* proved. the part of C142 that holds without restriction. 

*Model and proof:* These are the parts of the properties before that hold without restriction, stated on their own; model and proof are those of the property that the note names. Files: `BuilderProps.v`.

*Theorems:* `C142_round`, `C142_file`.

### C229 The dependencies of a local project

The dependencies of a project in a directory are those of its configuration, or those of its build if they are dynamic, that apply to the environment and the extras.

*Status:* proved. the part of C150 that holds without restriction. 

*Model and proof:* These are the parts of the properties before that hold without restriction, stated on their own; model and proof are those of the property that the note names. Files: `LocalProps.v`.

*Theorems:* `C150_project`.

### C230 Installed versions are offered first

When packages have to be changed, the version of a package that is installed is offered to the resolver before all others, and nothing is lost or added.

*Status:* proved. the part of C153 that holds without restriction. 

*Model and proof:* These are the parts of the properties before that hold without restriction, stated on their own; model and proof are those of the property that the note names. Files: `PlanProps.v`.

*Theorems:* `C153_prefers`.

### C231 What is recorded as requested

After planning an installation, what is recorded as requested are the requests of before that are not updated and, if a user asked, the new ones; requests of before are kept when no user asked.

*Status:* proved. the part of C154 that holds without restriction. 

*Model and proof:* These are the parts of the properties before that hold without restriction, stated on their own; model and proof are those of the property that the note names. Files: `PlanProps.v`.

*Theorems:* `C154_recorded`.

### C232 A generalised requirement allows the version it was made from

The requirement that is written down for an installed version of a package has its name and allows this version.

*Status:* proved. the part of C160 that holds without restriction. 

*Model and proof:* These are the parts of the properties before that hold without restriction, stated on their own; model and proof are those of the property that the note names. Files: `PlanProps.v`.

*Theorems:* `C160_self`.

### C233 A wheel that was changed is not installed

If a file of a wheel does not have the hash that the record of the wheel gives, the installation is refused before anything is written, whatever else the wheel has.

*Status:* proved. the part of C167 that holds without restriction. 

*Model and proof:* These are the parts of the properties before that hold without restriction, stated on their own; model and proof are those of the property that the note names. Files: `WheelProps.v`.

*Theorems:* `C167_mismatch`.

### C234 A wheel that is installed has the known format

An installed wheel has no directories of data but the known ones, has a format of version 1 if it gives one, and goes to the pure or the platform library as it says.

*Status:* proved. the part of C171, C172 that holds without restriction. 

*Model and proof:* These are the parts of the properties before that hold without restriction, stated on their own; model and proof are those of the property that the note names. Files: `WheelProps.v`.

*Theorems:* `C171_known_parts`, `C172_version`.

### C235 Repositories of conda belong to the platform

The directory of a conda channel that is asked is one for the operating system, the bits and the processor of the platform.

*Status:* proved. the part of C173 that holds without restriction. 

*Model and proof:* These are the parts of the properties before that hold without restriction, stated on their own; model and proof are those of the property that the note names. Files: `CondaProps.v`.

*Theorems:* `C173_own_platform`.

### C236 Builds of conda packages

Every build whose name follows the pattern of a dependency is found among the versions it allows, and if no build is found the dependency allows nothing.

*Status:* proved. the part of C176 that holds without restriction. 

*Model and proof:* These are the parts of the properties before that hold without restriction, stated on their own; model and proof are those of the property that the note names. Files: `CondaProps.v`.

*Theorems:* `C176_builds_found`, `C176_none_found`.

### C237 A failed installation does not change the lists of a project

When the installation of dependencies of a project fails, the lists of dependencies of the project are as before; when a removal succeeds, exactly the dependencies with one of the names are gone from each list, in the file too.

*Status:* proved. the part of C182, C183 that holds without restriction. 

*Model and proof:* These are the parts of the properties before that hold without restriction, stated on their own; model and proof are those of the property that the note names. Files: `ControllerProps.v`.

*Theorems:* `C182_lists`, `C183_removed`.

### C238 Stored credentials

Credentials that are stored are found again with the same password while the others stay, those that are removed are gone while the others stay, and another password opens and changes nothing.

*Status:* proved. the part of C186 that holds without restriction. 

*Model and proof:* These are the parts of the properties before that hold without restriction, stated on their own; model and proof are those of the property that the note names. Files: `ControllerProps.v`.

*Theorems:* `C186_kept`, `C186_forgotten`, `C186_password`.

### C239 Tasks of a project

A command without attached tasks runs once and has its own outcome; a task is attached by the file of its name; a task of the project comes before an installed one.

*Status:* proved. the part of C187, C188 that holds without restriction. 

*Model and proof:* These are the parts of the properties before that hold without restriction, stated on their own; model and proof are those of the property that the note names. Files: `ControllerProps.v`.

*Theorems:* `C187_plain`, `C187_attached`, `C188_own`, `C188_found`.

### C240 What a command works on

A command works on the nearest directory above that suits it, with a project before a group, that before an environment and that before a zoo; it is refused if there is none; a directory that is named is used or none; the global context is the environment of the interpreter.

*Status:* proved. the part of C189 that holds without restriction. 

*Model and proof:* These are the parts of the properties before that hold without restriction, stated on their own; model and proof are those of the property that the note names. Files: `ContextProps.v`.

*Theorems:* `C189_nearest`, `C189_refused`, `C189_named`, `C189_global`.

### C241 Installing from a named repository

Packages that are to come from a named repository are bound to it first, and removed and installed again if they were not bound to it.

*Status:* proved. the part of C190 that holds without restriction. 

*Model and proof:* These are the parts of the properties before that hold without restriction, stated on their own; model and proof are those of the property that the note names. Files: `ContextProps.v`.

*Theorems:* `C190_bound`.

### C242 Options of functions

When a function becomes a command, no name is given to two options; a parameter of one letter is an option of that letter, any other has its name with dashes and perhaps one of its letters; what is not given has the default of the function; values are read with the class of the parameter.

*Status:* proved. the part of C191, C192 that holds without restriction. 

*Model and proof:* These are the parts of the properties before that hold without restriction, stated on their own; model and proof are those of the property that the note names. Files: `MethodProps.v`.

*Theorems:* `C191_distinct`, `C191_named`, `C192_defaults`, `C192_read`.

### C243 Pages of html are read as they are nested

Exactly the pages without an end that ends nothing are read; the elements that are found for a list of matchers are the ends of the branches along which the matchers hold, each as often as it is in the page; an attribute has its last value.

*Status:* proved. the part of C195, C196 that holds without restriction. 

*Model and proof:* These are the parts of the properties before that hold without restriction, stated on their own; model and proof are those of the property that the note names. Files: `HtmlProps.v`.

*Theorems:* `C195_read`, `C195_attributes`, `C196_found`, `C196_along`.

### C244 Builds of torch

The builds that are offered are those for the cpu, if allowed, and those of versions of cuda that the machine can run; builds for cuda come first and newer ones before older ones.

*Status:* proved. the part of C197, C198 that holds without restriction. 

*Model and proof:* These are the parts of the properties before that hold without restriction, stated on their own; model and proof are those of the property that the note names. Files: `TorchProps.v`.

*Theorems:* `C197_row`, `C197_compatible`, `C198_answered`, `C198_all`, `C198_order`.

### C245 Containers of applications

The containers of an environment are its packages that are containers; the plugins of one are the requested packages beside the application; an application is installed only if it is not there in a version that fits; what is removed is the container or the named packages in it.

*Status:* proved. the part of C199, C200, C201 that holds without restriction. 

*Model and proof:* These are the parts of the properties before that hold without restriction, stated on their own; model and proof are those of the property that the note names. Files: `ContainerProps.v`.

*Theorems:* `C199_all`, `C200_own`, `C200_plugins`, `C201_installed`, `C201_absent`, `C201_uninstalled`.

### C246 The report of an environment

The report has one line for each package outside of containers, or each requested one; the dependencies that it calls missing are those that apply and that no package outside of containers provides; it calls orphan what was not asked for and what no package outside of containers needs.

*Status:* proved. the part of C204 that holds without restriction. 

*Model and proof:* These are the parts of the properties before that hold without restriction, stated on their own; model and proof are those of the property that the note names. Files: `ContainerProps.v`.

*Theorems:* `C204_lines`, `C204_missing`, `C204_orphan`.

### C247 Listeners are called in order

The last listener for a class is the one that is called, other classes keep theirs; for an operation a listener that raises nothing is called at the start, then what is inside, then at a failure, then at the end; a generator is started before and resumed after, or gets the exception.

*Status:* proved. the part of C205, C206, C207 that holds without restriction. 

*Model and proof:* These are the parts of the properties before that hold without restriction, stated on their own; model and proof are those of the property that the note names. Files: `MonitorProps.v`.

*Theorems:* `C205_told`, `C205_others`, `C206_order`, `C207_around`.

### C248 The lines of a process

Each line that a process prints is reported in order without the blanks around it, and its end comes last and once.

*Status:* proved. the part of C208 that holds without restriction. 

*Model and proof:* These are the parts of the properties before that hold without restriction, stated on their own; model and proof are those of the property that the note names. Files: `MonitorProps.v`.

*Theorems:* `C208_lines`, `C208_stripped`.

### C249 The Python of an environment

Interpreters whose versions have no local label are sorted from new to old; a file counts as one exactly by its name, as an executable file in PATH; the newest that a specifier allows is taken, and there is an error exactly if none is allowed; a chosen minor version means the versions from its first to before the first of the next minor version.

*Status:* proved. the part of C209, C210, C211 that holds without restriction. 

*Model and proof:* These are the parts of the properties before that hold without restriction, stated on their own; model and proof are those of the property that the note names. Files: `PythonsProps.v`.

*Theorems:* `C209_newest`, `C210_names`, `C210_taken`, `C210_all`, `C210_path`, `C211_newest`, `C211_none`, `C211_meaning`.

### C250 A conda package whose files are not as signed is refused

If a path in info/paths.json is missing from the archive or has another sha256, or if there is no paths.json, then nothing is installed and the environment is untouched.

*Status:* proved. any signed path that is missing or has another hash refuses the package before anything is copied. 

*Model and proof:* The extracted archive is a file system; the hash, the readers of paths.json and index.json, the shell and the order of sets are parameters. The copying is the copy transaction of the model before, with a bound on the system calls. The specification says where a file belongs (`home`) by the meaning of names like python3.9 and not by the dictionary of relocated files; an invariant over the lines of info/files shows that each lands there, and frames say what the other steps leave alone. Files: `CondaInstallProps.v`.

*Theorems:* `C250_refused`, `C250_unsigned`.

### C251 The files of a conda package are installed as signed

After an installation every file listed in info/files is at its place in the environment, with the content whose hash is in paths.json; what was in the library of some version of Python is in the library of the Python of the environment.

*Status:* partial. proved for packages with at most one version of Python and paths without . or ..; REFUTED: with two versions the files of one replace those of the other. 

*Model and proof:* The extracted archive is a file system; the hash, the readers of paths.json and index.json, the shell and the order of sets are parameters. The copying is the copy transaction of the model before, with a bound on the system calls. The specification says where a file belongs (`home`) by the meaning of names like python3.9 and not by the dictionary of relocated files; an invariant over the lines of info/files shows that each lands there, and frames say what the other steps leave alone. Files: `CondaInstallProps.v`.

*Theorems:* `C251_installed_partial`, `C251_two_versions_refuted`.

### C252 The RECORD of a conda package is right

After an installation the RECORD can be read, and it has every installed file with its hash and its size, and nothing else.

*Status:* partial. proved for packages with at most one version of Python and paths without . or ..; REFUTED: with two versions the hash in the RECORD may be that of the other file. 

*Model and proof:* The extracted archive is a file system; the hash, the readers of paths.json and index.json, the shell and the order of sets are parameters. The copying is the copy transaction of the model before, with a bound on the system calls. The specification says where a file belongs (`home`) by the meaning of names like python3.9 and not by the dictionary of relocated files; an invariant over the lines of info/files shows that each lands there, and frames say what the other steps leave alone. Files: `CondaInstallProps.v`.

*Theorems:* `C252_recorded_partial`, `C251_two_versions_refuted`.

### C253 Whatever the installation of a conda package creates is recorded

Every file that is new after an installation is in the RECORD, or is the RECORD, so that it is removed with the package.

*Status:* partial. proved for packages with their own dist-info directory; REFUTED: the WHEEL and METADATA that pkm generates are not recorded. 

*Model and proof:* The extracted archive is a file system; the hash, the readers of paths.json and index.json, the shell and the order of sets are parameters. The copying is the copy transaction of the model before, with a bound on the system calls. The specification says where a file belongs (`home`) by the meaning of names like python3.9 and not by the dictionary of relocated files; an invariant over the lines of info/files shows that each lands there, and frames say what the other steps leave alone. Files: `CondaInstallProps.v`.

*Theorems:* `C253_own_partial`, `C258_new_files_partial`, `C253_generated_refuted`.

### C254 Conda packages that the user asked for are marked as such

If a conda package is installed because of a request of the user then REQUESTED is written.

*Status:* partial. REFUTED: install_to ignores the request, REQUESTED is never written; proved that it never is (C254_never). 

*Model and proof:* The extracted archive is a file system; the hash, the readers of paths.json and index.json, the shell and the order of sets are parameters. The copying is the copy transaction of the model before, with a bound on the system calls. The specification says where a file belongs (`home`) by the meaning of names like python3.9 and not by the dictionary of relocated files; an invariant over the lines of info/files shows that each lands there, and frames say what the other steps leave alone. Files: `CondaInstallProps.v`.

*Theorems:* `C254_never`, `C254_refuted`.

### C255 An installation of a conda package that fails leaves no trace

If the installation fails at any step then the environment is as before.

*Status:* partial. proved for tidy packages that whatever was there stays, except for the RECORD, and that only directories and generated files are new; REFUTED: a failure leaves the generated dist-info directory, and loses the RECORD that was there. 

*Model and proof:* The extracted archive is a file system; the hash, the readers of paths.json and index.json, the shell and the order of sets are parameters. The copying is the copy transaction of the model before, with a bound on the system calls. The specification says where a file belongs (`home`) by the meaning of names like python3.9 and not by the dictionary of relocated files; an invariant over the lines of info/files shows that each lands there, and frames say what the other steps leave alone. Files: `CondaInstallProps.v`.

*Theorems:* `C255_kept_partial`, `C255_leftover_refuted`, `C255_record_refuted`.

### C256 The hooks of conda packages are run

A package with a pre-link or post-link script is installed, and the script is run.

*Status:* partial. REFUTED: the build number is put as a number in the environment of the process, so that no package with a hook is installed; proved for all of them (C256_never). 

*Model and proof:* The extracted archive is a file system; the hash, the readers of paths.json and index.json, the shell and the order of sets are parameters. The copying is the copy transaction of the model before, with a bound on the system calls. The specification says where a file belongs (`home`) by the meaning of names like python3.9 and not by the dictionary of relocated files; an invariant over the lines of info/files shows that each lands there, and frames say what the other steps leave alone. Files: `CondaInstallProps.v`.

*Theorems:* `C256_never`, `C256_refuted`.

### C257 Conda packages for all platforms can be imported

The modules of a noarch package, below site-packages in the archive, are installed into the library of the environment.

*Status:* partial. REFUTED: site-packages of packages for all platforms goes below the environment itself; C251_installed_partial says where files go. 

*Model and proof:* The extracted archive is a file system; the hash, the readers of paths.json and index.json, the shell and the order of sets are parameters. The copying is the copy transaction of the model before, with a bound on the system calls. The specification says where a file belongs (`home`) by the meaning of names like python3.9 and not by the dictionary of relocated files; an invariant over the lines of info/files shows that each lands there, and frames say what the other steps leave alone. Files: `CondaInstallProps.v`.

*Theorems:* `C251_installed_partial`, `C257_refuted`.

### C258 The installation of a conda package touches nothing else

Files that are not of the package, nor its dist-info files, are as before.

*Status:* partial. proved for packages with at most one version of Python and paths without . or ..; REFUTED: with .. files are read and written outside. 

*Model and proof:* The extracted archive is a file system; the hash, the readers of paths.json and index.json, the shell and the order of sets are parameters. The copying is the copy transaction of the model before, with a bound on the system calls. The specification says where a file belongs (`home`) by the meaning of names like python3.9 and not by the dictionary of relocated files; an invariant over the lines of info/files shows that each lands there, and frames say what the other steps leave alone. Files: `CondaInstallProps.v`.

*Theorems:* `C258_untouched_partial`, `C258_new_files_partial`, `C258_outside_refuted`.

### C259 A file of sections is read as it was written

What INIConfigIO writes for a dictionary of sections is read back as the same dictionary.

*Status:* partial. proved for names and values that the rules of the format leave alone (no percent signs, comments, blanks at the ends of lines, and no = or : in names); REFUTED in general: a doubled percent sign, a line like a comment, a name with a colon and a name outside of the sections are read back differently. 

*Model and proof:* Python's configparser is modelled line by line as far as it is used (checked against the real one on 1500 random texts and 1500 random dictionaries): the state of the reader, multi-line values, comments, interpolation with its depth. The round trip is an induction over the lines that are written, with the state of the reader as a function of the options so far; for the sections the same lemma is used for DEFAULT and for the others. That a section opened twice is refused is an invariant over all lines. Files: `IniProps.v`.

*Theorems:* `C259_round_trip_partial`, `C259_percent_refuted`, `C259_comment_refuted`, `C259_name_refuted`, `C259_default_refuted`, `C259_lost_refuted`.

### C260 A value that cannot be written is refused before anything is written

If one value of a dictionary cannot be written then writing fails and the file stays as it was; other dictionaries are written.

*Status:* partial. proved: a single percent sign anywhere refuses the whole dictionary, before the file is opened; missing: the exact condition for values with several percent signs; REFUTED for a section with the name DEFAULT, which cannot be written. 

*Model and proof:* Python's configparser is modelled line by line as far as it is used (checked against the real one on 1500 random texts and 1500 random dictionaries): the state of the reader, multi-line values, comments, interpolation with its depth. The round trip is an induction over the lines that are written, with the state of the reader as a function of the options so far; for the sections the same lemma is used for DEFAULT and for the others. That a section opened twice is refused is an invariant over all lines. Files: `IniProps.v`.

*Theorems:* `C260_refused`, `C260_written_partial`, `C260_default_refuted`.

### C261 The entry points of a package are read as they were saved

The entry points that a build saves in entry_points.txt are those that are loaded from it, and the files of other tools mean what the specification of entry points says.

*Status:* partial. proved for references without extras and names that can be written; REFUTED: a name with a colon, as the specification allows, is cut at it, and a file with values for all sections raises AttributeError. 

*Model and proof:* Python's configparser is modelled line by line as far as it is used (checked against the real one on 1500 random texts and 1500 random dictionaries): the state of the reader, multi-line values, comments, interpolation with its depth. The round trip is an induction over the lines that are written, with the state of the reader as a function of the options so far; for the sections the same lemma is used for DEFAULT and for the others. That a section opened twice is refused is an invariant over all lines. Files: `IniProps.v`.

*Theorems:* `C261_loaded_partial`, `C261_colon_refuted`, `C261_default_refuted`.

### C262 The entry points of an environment are those of its packages

The entry points of a group are those that the installed packages have in it, with their package and in order; one bad package does not hide the others.

*Status:* partial. proved if every file can be read; REFUTED: one package with a file that cannot be read makes the entry points of all packages fail, and with them the loading of repositories. 

*Model and proof:* Python's configparser is modelled line by line as far as it is used (checked against the real one on 1500 random texts and 1500 random dictionaries): the state of the reader, multi-line values, comments, interpolation with its depth. The round trip is an induction over the lines that are written, with the state of the reader as a function of the options so far; for the sections the same lemma is used for DEFAULT and for the others. That a section opened twice is refused is an invariant over all lines. Files: `IniProps.v`.

*Theorems:* `C262_found`, `C262_no_file`, `C262_one_bad_refuted`.

### C263 What is defined twice or makes no sense is refused

A file in which the same section is opened twice, or a name is given twice in a section, or a line means nothing, is not read with parts missing, but refused.

*Status:* proved. for every section but DEFAULT, which may be opened again. 

*Model and proof:* Python's configparser is modelled line by line as far as it is used (checked against the real one on 1500 random texts and 1500 random dictionaries): the state of the reader, multi-line values, comments, interpolation with its depth. The round trip is an induction over the lines that are written, with the state of the reader as a function of the options so far; for the sections the same lemma is used for DEFAULT and for the others. That a section opened twice is refused is an invariant over all lines. Files: `IniProps.v`.

*Theorems:* `C263_twice`, `C263_option_twice`, `C263_senseless`, `C263_percent`.

### C264 Extracting a wheel stays inside

Extracting a zip archive or a wheel changes nothing outside the directory it is extracted to, whatever the names of its members are and whether it succeeds or fails in the middle.

*Status:* proved. for a target that is a directory reached without links and has none below it (the callers extract to a new temporary directory). 

*Model and proof:* The file system has symbolic links, which are followed component by component as the kernel does; extractall of zipfile and tarfile, os.makedirs and Path.mkdir are modelled step by step, with the state that a failure leaves (checked against the real ones in a changed root on 3500 random archives). Staying inside is an invariant of every step: the target is reached through directories, nothing below it is a link, all other places are as before. For the contents the invariant says exactly what is below the target after a part of the members: their files and the directories above them. Files: `ArchiveProps.v`.

*Theorems:* `C264_zip_inside`.

### C265 Extracting a source distribution stays inside

Extracting a tar archive (a source distribution, a conda package) changes nothing outside the directory it is extracted to, whatever it has as members.

*Status:* partial. proved for archives without links, without absolute names and without .. in names; REFUTED for each of the three, as tarfile is used without a filter (python 3.8 to 3.13). 

*Model and proof:* The file system has symbolic links, which are followed component by component as the kernel does; extractall of zipfile and tarfile, os.makedirs and Path.mkdir are modelled step by step, with the state that a failure leaves (checked against the real ones in a changed root on 3500 random archives). Staying inside is an invariant of every step: the target is reached through directories, nothing below it is a link, all other places are as before. For the contents the invariant says exactly what is below the target after a part of the members: their files and the directories above them. Files: `ArchiveProps.v`.

*Theorems:* `C265_tar_inside_partial`, `C265_up_refuted`, `C265_absolute_refuted`, `C265_link_refuted`.

### C266 Archives are extracted completely

What is extracted to an empty directory are exactly the files of the archive, each at the place its name says with its own content.

*Status:* partial. proved for members that are files with normal names, none of them at the place of another or above it; REFUTED for zip archives in general: b and ../b are the same file. 

*Model and proof:* The file system has symbolic links, which are followed component by component as the kernel does; extractall of zipfile and tarfile, os.makedirs and Path.mkdir are modelled step by step, with the state that a failure leaves (checked against the real ones in a changed root on 3500 random archives). Staying inside is an invariant of every step: the target is reached through directories, nothing below it is a link, all other places are as before. For the contents the invariant says exactly what is below the target after a part of the members: their files and the directories above them. Files: `ArchiveProps.v`.

*Theorems:* `C266_zip_partial`, `C266_tar_partial`, `C266_collision_refuted`.

### C267 The name decides how an archive is read

An archive whose name has none of the supported ends, or that is not what its name says, is refused and nothing is written.

*Status:* proved. for a target that is a directory. 

*Model and proof:* The file system has symbolic links, which are followed component by component as the kernel does; extractall of zipfile and tarfile, os.makedirs and Path.mkdir are modelled step by step, with the state that a failure leaves (checked against the real ones in a changed root on 3500 random archives). Staying inside is an invariant of every step: the target is reached through directories, nothing below it is a link, all other places are as before. For the contents the invariant says exactly what is below the target after a part of the members: their files and the directories above them. Files: `ArchiveProps.v`.

*Theorems:* `C267_unsupported`, `C267_mismatch`.

### C268 Dependency resolution ends

The resolver ends on every package index with finitely many packages and versions: with a solution, or with an error. In particular it ends when there is a solution.

*Status:* partial. REFUTED: an index of four packages with a solution on which the resolver repeats the same round for ever, with ideal sets of versions and with the specifiers of pkm, whatever order the set of changed packages has. Proved for every problem: once the number of rounds suffices for an answer, that answer is final. 

*Model and proof:* The model of the resolver takes a number of rounds and answers RecursionErr when they are used up. PubgrubFuel proves that more rounds never change another answer. For the refutation a round is a function from states to states (with the set of all outcomes for the orders of changed.pop()); explore computes that every way leads, within twelve rounds, to a state that the next round leaves exactly as it is, and explore_endless turns this into a proof for every number of rounds. The cause: a package that is required but whose accumulated constraint is RestrictAllVersions makes check_satisfaction answer unsatisfied for all of its incompatibilities, so that propagation finds no conflict and the package is chosen again. Files: `PubgrubEndlessProps.v`.

*Theorems:* `C268_answer_is_final`, `C268_endless_refuted`, `C268_endless_real_refuted`.

### C269 What is over is not displayed any more

When the body of a show has ended and the show has returned, its component is not in the live output, whatever other threads do at the same time.

*Status:* partial. proved when entering and leaving a show are not interrupted by other threads; REFUTED for all schedules: the removal takes no lock, another thread writes back the list it read before, and the component stays when everything is over. 

*Model and proof:* A show is a sequence of steps between accesses to what threads share: taking the lock, reading the list, writing it, looking at its length and giving the lock back, and, without the lock, reading the list and writing it without the component. A schedule says who makes the next step. The refutations are schedules. The positive statements about whole calls are an invariant (settled) over calls that do not overlap; C272 is an invariant (sane) over single steps that also speaks about the lists that threads have read and not yet written back. Files: `DisplayProps.v`.

*Theorems:* `C269_over_partial`, `C269_stays_refuted`.

### C270 What is shown is displayed

While the body of a show runs, its component is in the live output.

*Status:* partial. proved when entering and leaving a show are not interrupted by other threads; REFUTED for all schedules: a removal writes back a list that it read before the component was added. 

*Model and proof:* A show is a sequence of steps between accesses to what threads share: taking the lock, reading the list, writing it, looking at its length and giving the lock back, and, without the lock, reading the list and writing it without the component. A schedule says who makes the next step. The refutations are schedules. The positive statements about whole calls are an invariant (settled) over calls that do not overlap; C272 is an invariant (sane) over single steps that also speaks about the lists that threads have read and not yet written back. Files: `DisplayProps.v`.

*Theorems:* `C270_shown_partial`, `C270_lost_refuted`.

### C271 The live output is redrawn while something is shown

While the body of a show runs, the refreshing thread does not sleep on the condition that wakes it when a component comes.

*Status:* partial. proved when entering and leaving a show are not interrupted by other threads; REFUTED for all schedules: the length is looked at after another thread wrote a longer list, and nobody is notified. 

*Model and proof:* A show is a sequence of steps between accesses to what threads share: taking the lock, reading the list, writing it, looking at its length and giving the lock back, and, without the lock, reading the list and writing it without the component. A schedule says who makes the next step. The refutations are schedules. The positive statements about whole calls are an invariant (settled) over calls that do not overlap; C272 is an invariant (sane) over single steps that also speaks about the lists that threads have read and not yet written back. Files: `DisplayProps.v`.

*Theorems:* `C271_awake_partial`, `C271_asleep_refuted`.

### C272 The live output holds started components, each once

At every moment, the live output holds no component twice and none whose show has not begun to add it.

*Status:* proved. for every schedule of every number of components. 

*Model and proof:* A show is a sequence of steps between accesses to what threads share: taking the lock, reading the list, writing it, looking at its length and giving the lock back, and, without the lock, reading the list and writing it without the component. A schedule says who makes the next step. The refutations are schedules. The positive statements about whole calls are an invariant (settled) over calls that do not overlap; C272 is an invariant (sane) over single steps that also speaks about the lists that threads have read and not yet written back. Files: `DisplayProps.v`.

*Theorems:* `C272_displayed`.

### C273 Help can be shown for every command that can be run

If a command, task or sub-command can be run then asking for its help shows a usage line instead of failing.

*Status:* partial. proved if every option or field that takes a value has a name that does not begin with two dashes; REFUTED otherwise: a task with the parameters on, no, non has the option --non without a letter, can be run, and fails when asked for its help. 

*Model and proof:* The generator of help is modelled over the definitions of arguments of the model of the command line, so that what is shown can be compared with what is understood. Options are known by their position, as the program knows them by identity. That the usage is complete is followed through the three ways in which an option reaches the line (letters of flags, a token of its own, a group whose tokens are stripped of brackets); that brackets match is shown by a scanner that every token leaves at the level at which it found it. Files: `HelpProps.v`.

*Theorems:* `C273_shown_partial`, `C273_long_refuted`.

### C274 The overview lists every argument and sub-command

Every option that a word can stand for, every positional argument and every sub-command has its line in the overview, with all names in order of length and its help; no option is listed twice, and a name is listed with what it stands for.

*Status:* partial. that everything is listed is proved for all commands; REFUTED: that a listed name stands for what it is listed with, as two options may share a name. 

*Model and proof:* The generator of help is modelled over the definitions of arguments of the model of the command line, so that what is shown can be compared with what is understood. Options are known by their position, as the program knows them by identity. That the usage is complete is followed through the three ways in which an option reaches the line (letters of flags, a token of its own, a group whose tokens are stripped of brackets); that brackets match is shown by a scanner that every token leaves at the level at which it found it. Files: `HelpProps.v`.

*Theorems:* `C274_listed`, `C274_taken_refuted`.

### C275 The usage spells every option and field as it is typed

Every option and every field of a command is in its usage line, by a name that can be typed or by its letter in a word of flags.

*Status:* partial. proved for options whose names have no brackets and that are flags or have a name without two dashes; REFUTED for fields: the flag +f is shown as -f, which is refused. 

*Model and proof:* The generator of help is modelled over the definitions of arguments of the model of the command line, so that what is shown can be compared with what is understood. Options are known by their position, as the program knows them by identity. That the usage is complete is followed through the three ways in which an option reaches the line (letters of flags, a token of its own, a group whose tokens are stripped of brackets); that brackets match is shown by a scanner that every token leaves at the level at which it found it. Files: `HelpProps.v`.

*Theorems:* `C275_spelled_partial`, `C275_field_flag_refuted`.

### C276 Options that exclude each other are shown as alternatives

Options of one exclusive group are shown between bars in one pair of brackets, so that no reader takes them for options that can be given together.

*Status:* partial. proved for one group of options with a value, a default and no fields; REFUTED for flags: -a and -b, which exclude each other, are shown as -ab, which is refused. 

*Model and proof:* The generator of help is modelled over the definitions of arguments of the model of the command line, so that what is shown can be compared with what is understood. Options are known by their position, as the program knows them by identity. That the usage is complete is followed through the three ways in which an option reaches the line (letters of flags, a token of its own, a group whose tokens are stripped of brackets); that brackets match is shown by a scanner that every token leaves at the level at which it found it. Files: `HelpProps.v`.

*Theorems:* `C276_bars_partial`, `C276_flags_refuted`.

### C277 The brackets of a usage match

In a usage line every bracket that is opened is closed, so that what is optional can be told.

*Status:* partial. proved for commands without exclusive groups and names without brackets; REFUTED for an option with a field in a group, as all brackets at the ends are stripped. 

*Model and proof:* The generator of help is modelled over the definitions of arguments of the model of the command line, so that what is shown can be compared with what is understood. Options are known by their position, as the program knows them by identity. That the usage is complete is followed through the three ways in which an option reaches the line (letters of flags, a token of its own, a group whose tokens are stripped of brackets); that brackets match is shown by a scanner that every token leaves at the level at which it found it. Files: `HelpProps.v`.

*Theorems:* `C277_matched_partial`, `C277_group_refuted`.

### C278 The name of a type is shown as words in upper case

The value of an option is shown as the name of its type, cut into words at the changes of case and at no other place, in upper case with a line between them.

*Status:* proved. for all strings of ASCII characters. 

*Model and proof:* The generator of help is modelled over the definitions of arguments of the model of the command line, so that what is shown can be compared with what is understood. Options are known by their position, as the program knows them by identity. That the usage is complete is followed through the three ways in which an option reaches the line (letters of flags, a token of its own, a group whose tokens are stripped of brackets); that brackets match is shown by a scanner that every token leaves at the level at which it found it. Files: `HelpProps.v`.

*Theorems:* `C278_words`, `C278_letters`.

### C279 PKM_HOME decides where pkm keeps its data

If the variable PKM_HOME is set, pkm keeps everything in that directory; otherwise in the one that the platform names for data of programs, whatever directory pkm is run in.

*Status:* partial. the place is proved for the default; REFUTED if PKM_HOME is given, which stays a text so that every use raises AttributeError; REFUTED for an empty XDG_DATA_HOME, with which the home depends on the current directory. 

*Model and proof:* The home is computed from the variables, the platform, the current directory and the homes of users; a home is a text or a path as it is in the program, and a text has no methods of a path. Cleaning the cache is a function on trees of files with every directory that is made on the way. The hooks are run over a world with the attribute of the package pkm.api, which the hooks swap, and the home of the object in the module pkm.api.pkm, which everything imports; a build is any function of a home and a tree. Files: `HomeProps.v`.

*Theorems:* `C279_given_refuted`, `C279_default_partial`, `C279_empty_refuted`, `C279_two_refuted`.

### C280 Cleaning the cache removes the caches and nothing else

After the cache is cleaned there is nothing under repos, build-cache and resources/http of the home; everything else that was there is as it was.

*Status:* proved. for trees without symbolic links. 

*Model and proof:* The home is computed from the variables, the platform, the current directory and the homes of users; a home is a text or a path as it is in the program, and a text has no methods of a path. Cleaning the cache is a function on trees of files with every directory that is made on the way. The hooks are run over a world with the attribute of the package pkm.api, which the hooks swap, and the home of the object in the module pkm.api.pkm, which everything imports; a build is any function of a home and a tree. Files: `HomeProps.v`.

*Theorems:* `C280_clean`, `C280_succeeds`.

### C281 A build through the hooks leaves the home and the modules alone

If there is no home of pkm, a build through the hooks of a build backend works in a directory of its own that is gone afterwards, makes no home, and leaves the modules of pkm as they were.

*Status:* partial. REFUTED: the build gets the home and makes it, and the name pkm.api.pkm is no longer the module afterwards; proved that the directory of its own is gone afterwards and that with a home nothing is swapped. 

*Model and proof:* The home is computed from the variables, the platform, the current directory and the homes of users; a home is a text or a path as it is in the program, and a text has no methods of a path. Cleaning the cache is a function on trees of files with every directory that is made on the way. The hooks are run over a world with the attribute of the package pkm.api, which the hooks swap, and the home of the object in the module pkm.api.pkm, which everything imports; a build is any function of a home and a tree. Files: `HomeProps.v`.

*Theorems:* `C281_home_refuted`, `C281_module_refuted`, `C281_partial`.

### C282 The mode that is given decides how a package is stored

A package that is installed with --mode copy is copied and one with --mode editable is linked, whatever its name and kind, and the mode that is recorded is what was done.

*Status:* partial. proved for projects whose name is their key; REFUTED for names with a dash or a capital, whose mode is not found, and for published packages, which are recorded as linked though they are copied. 

*Model and proof:* The modes are a dictionary by the names that were given, the plan looks them up by key (InstallModel.plan_one is used as it is). Each kind of package has two modes, the one it records and the one of its files. The statements follow from one lemma on what the dictionary answers. Files: `StoreProps.v`.

*Theorems:* `C282_dash_refuted`, `C282_linked_refuted`, `C282_project_partial`, `C282_again_partial`, `C282_published_refuted`, `C282_recorded`, `C282_choices`.

### C283 An object that hands on answers as the object it wraps

A class made with delegate answers every member of the interface that it does not define itself as the object it wraps does, so that the repository an installation works with has the name, the publisher and the conditions of the repository it wraps.

*Status:* partial. proved for methods of the interface that are left abstract; REFUTED for properties, which become functions whose call is a TypeError, so that the repository of an installation has no name and no publisher, and for members that the interface defines, which are not handed on. 

*Model and proof:* Classes are what python makes of them: members, a list of bases, the set of abstract names, and an attribute is found in the class before the fields of the object. delegate adds for every abstract name that it is given a function that asks the wrapped object and calls the answer. A wrapped object is any function from names to members. Files: `DelegateProps.v`.

*Theorems:* `C283_calls_partial`, `C283_property_refuted`, `C283_repository_refuted`.

### C284 A published distribution arrives with all its metadata

The upload of a distribution has a field for every value of the metadata under the name the index knows it by, the digests of exactly the file that is sent, the kind of the distribution and the python tag of a wheel, and nothing else.

*Status:* partial. proved that every value of the metadata is sent, with right digests and nothing else; REFUTED for the tag of wheels with a build number, for the entries that the index knows by plural names, and for files that are no distributions, which are sent as source distributions. 

*Model and proof:* The fields are computed from the metadata as a dictionary that is filled twice. What is sent under a name is a list, so that order and number count. Base64 is transcribed on bits and read back by a decoder of RFC 4648 that is not part of the model. The memory of publishers is kept apart from the chain of configurations, which may be another one at every question. The text of the hash is cut again at its separators to show what it determines. Files: `PublishProps.v`.

*Theorems:* `C284_metadata_partial`, `C284_nothing_else_partial`, `C284_file_partial`, `C284_tag_partial`, `C284_build_refuted`, `C284_plural_refuted`, `C284_any_file_refuted`, `C284_field_names`.

### C285 The credentials arrive as they were given

A server that reads the header of an upload finds the name and the password that the user gave, different credentials give different headers, and no password can break the header.

*Status:* partial. proved for names without a colon; REFUTED for names with a colon, which are not refused though they cannot be told from a part of the password. 

*Model and proof:* The fields are computed from the metadata as a dictionary that is filled twice. What is sent under a name is a list, so that order and number count. Base64 is transcribed on bits and read back by a decoder of RFC 4648 that is not part of the model. The memory of publishers is kept apart from the chain of configurations, which may be another one at every question. The text of the hash is cut again at its separators to show what it determines. Files: `PublishProps.v`.

*Theorems:* `C285_credentials_partial`, `C285_distinct_partial`, `C285_one_line`, `C285_colon_refuted`, `C285_arguments`.

### C286 A package is published to the repository that the configuration names

The publisher of a name belongs to the nearest repository of that name in the configuration as it is now, carries its name, and a name that is not configured is refused.

*Status:* partial. proved for the first question; REFUTED afterwards: a change of the configuration of a parent is not noticed, and two names of one place share the publisher of the first. 

*Model and proof:* The fields are computed from the metadata as a dictionary that is filled twice. What is sent under a name is a list, so that order and number count. Base64 is transcribed on bits and read back by a decoder of RFC 4648 that is not part of the model. The memory of publishers is kept apart from the chain of configurations, which may be another one at every question. The text of the hash is cut again at its separators to show what it determines. Files: `PublishProps.v`.

*Theorems:* `C286_nearest_partial`, `C286_missing`, `C286_moved_refuted`, `C286_name_refuted`.

### C287 Environments that differ in a marker have different hashes

The text from which the hash of an environment is computed does not depend on the order of the markers, and is different for environments that differ in any marker.

*Status:* partial. proved for markers without a semicolon; REFUTED with one. 

*Model and proof:* The fields are computed from the metadata as a dictionary that is filled twice. What is sent under a name is a list, so that order and number count. Base64 is transcribed on bits and read back by a decoder of RFC 4648 that is not part of the model. The memory of publishers is kept apart from the chain of configurations, which may be another one at every question. The text of the hash is cut again at its separators to show what it determines. Files: `PublishProps.v`.

*Theorems:* `C287_order`, `C287_apart_partial`, `C287_semicolon_refuted`.

### C288 A message is shown as it is

What the program prints appears on the screen as it is, apart from the styles that the program itself puts into its messages.

*Status:* partial. the messages that are shown as they are are characterised exactly: those without a tag and without an escaped bracket; REFUTED for others: a bracket with a word that begins with a small letter vanishes, as extras do, and one with a slash raises an exception. 

*Model and proof:* The parser and the renderer of rich's markup, through which every message goes, are transcribed with their backslashes and their stack of tags. That exactly the plain messages are shown as they are follows from lengths: every tag and every escape makes the text shorter. The messages of the program are functions of what they tell. Files: `MarkupProps.v`.

*Theorems:* `C288_exactly`, `C288_any_mode`, `C288_extras_refuted`, `C288_slash_refuted`.

### C289 The result of a resolution and the processes that run are told

The conclusion of a resolution shows every package that was decided on with its extras and its version, and every process is announced with its command before it runs.

*Status:* partial. proved for decisions without extras; REFUTED with extras, which vanish so that two packages look the same, and for commands with a bracket and a slash, which raise an exception instead of being announced. 

*Model and proof:* The parser and the renderer of rich's markup, through which every message goes, are transcribed with their backslashes and their stack of tags. That exactly the plain messages are shown as they are follows from lengths: every tag and every escape makes the text shorter. The messages of the program are functions of what they tell. Files: `MarkupProps.v`.

*Theorems:* `C289_shown_partial`, `C289_complete`, `C289_extras_refuted`, `C289_process_refuted`.

### C290 The executable made for a script suits the system

For an entry point of a package, the environment gets an executable that its operating system can start: on Windows a launcher with the extension exe, for the processor and for the console or for windows as the entry point says; on posix systems a text that begins with its interpreter.

*Status:* partial. the text for posix systems is written on every system: right there, REFUTED for Windows, which is never recognised, its name being compared in the wrong case; were it recognised, making a launcher always fails and leaves an incomplete file, and for ARM no program of the name exists; elsewhere the program that would be chosen for an entry point is the right one. 

*Model and proof:* The platform, the choice of the launcher and the two ways of writing a script are transcribed; a system's name in small letters never equals one with a capital, which settles every system at once. What Linux starts for a text with an interpreter line is stated after its own source, with the number of bytes it looks at as a parameter; that exactly the single words that are seen whole are started follows from the splitting of the line. Files: `LauncherProps.v`.

*Theorems:* `C290_written`, `C290_windows_refuted`, `C290_launcher_refuted`, `C290_arm_refuted`, `C290_kind`.

### C291 A script starts the interpreter of its environment

When a script of an environment, made for an entry point or shipped in a wheel, is started, the system runs the interpreter of that environment and passes it the script alone.

*Status:* partial. characterised exactly: the path has no blank and is seen whole; REFUTED for paths with a space, for long paths, and for scripts for windows, which get a letter after the extension. 

*Model and proof:* The platform, the choice of the launcher and the two ways of writing a script are transcribed; a system's name in small letters never equals one with a capital, which settles every system at once. What Linux starts for a text with an interpreter line is stated after its own source, with the number of bytes it looks at as a parameter; that exactly the single words that are seen whole are started follows from the splitting of the line. Files: `LauncherProps.v`.

*Theorems:* `C291_exactly`, `C291_wheel_scripts`, `C291_space_refuted`, `C291_long_refuted`, `C291_window_scripts_refuted`.

### C292 A task that is listed can be run

The list of tasks names every task of the project and every installed one, and each name in it runs the task it was made for.

*Status:* partial. the names of the project's tasks are characterised, and each runs its file in a tidy directory; REFUTED for names with a dash, for files beside a directory of the same name, for all installed tasks, whose names begin with a point or lack the package, and without installed tasks, when listing fails. 

*Model and proof:* The two searches that make the list are transcribed over trees of files, and so is the search of Python for a module: a package before a file, a file before another directory. By induction over trees the list has exactly the scripts under their paths; by induction over a path, a tidy tree leads the name back to its file. Files: `TaskProps.v`.

*Theorems:* `C292_listed`, `C292_runs_partial`, `C292_dash_refuted`, `C292_beside_refuted`, `C292_installed_refuted`, `C292_none_installed_refuted`.

### C293 An application that is installed from its wheel works like one that is installed from its project

The commands in the container of an application run under the interpreter of the environment the application is installed in, and its wheel is only offered to platforms that its packages suit.

*Status:* partial. proved for projects that are installed directly; REFUTED for every application's wheel: its commands name the interpreter of the environment it was built in, which is removed, and its name says that it suits every platform. 

*Model and proof:* The container's scripts are texts with the interpreter of the environment in the first line (C291); a wheel is the files of a new environment, copied unchanged on installation. The choice of the release is transcribed; versions are compared as C01 has them, after parsing their texts. Files: `AppProps.v`.

*Theorems:* `C293_project`, `C293_wheel_refuted`, `C293_platform_refuted`.

### C294 The installer installs with the newest release of pkm

The script get_pkm.py fetches the source archive of the newest release of pkm that the index has, and installs with it.

*Status:* partial. proved if the index answers in the order of versions; REFUTED for the order of texts, in which 0.9 is after 0.10 and 1.0a1 after 1.0, and if the last release has no source archive. 

*Model and proof:* The container's scripts are texts with the interpreter of the environment in the first line (C291); a wheel is the files of a new environment, copied unchanged on installation. The choice of the release is transcribed; versions are compared as C01 has them, after parsing their texts. Files: `AppProps.v`.

*Theorems:* `C294_newest_partial`, `C294_text_order_refuted`, `C294_prerelease_refuted`, `C294_no_archive_refuted`.

### C295 A new environment works

Creating an environment for an interpreter puts into it, and nowhere else, the commands python, python3 and python3.x that lead to that interpreter, its settings and its library directory under both of its names; nothing is done where something exists.

*Status:* partial. proved for the commands, the settings and the places, and for lib64 of an environment with an absolute path; REFUTED for lib64 of every environment that is made at a relative path: the link leads nowhere. 

*Model and proof:* The creation of an environment is a function to the list of what is put where; where a link leads is computed from its text and its own directory, as the system does. The file with what is known about an interpreter is a state that a sequence of processes goes through, each with its own hash; theorems are by induction over the sequence. The marker is read by the transcribed parser of versions (C05). Processes run in the activation of C49. Files: `VenvProps.v`.

*Theorems:* `C295_interpreter`, `C295_settings`, `C295_inside`, `C295_refused`, `C295_lib64_partial`, `C295_lib64_refuted`, `C295_windows`.

### C296 What is known about the interpreter of an environment

What pkm knows about the interpreter of an environment is what that interpreter says about itself; it is saved, so that the interpreter is run only once for it, and rebuilt if the file is broken or the interpreter has another path.

*Status:* partial. proved: what is known is what the interpreter says, as long as it is not replaced; one process runs it once; REFUTED: every further process runs it again, because hashes of texts differ between processes, so that the file is never of use; a process does not notice that the interpreter was replaced; a file with JSON that is no dictionary makes the environment unusable. 

*Model and proof:* The creation of an environment is a function to the list of what is put where; where a link leads is computed from its text and its own directory, as the system does. The file with what is known about an interpreter is a state that a sequence of processes goes through, each with its own hash; theorems are by induction over the sequence. The marker is read by the transcribed parser of versions (C05). Processes run in the activation of C49. Files: `VenvProps.v`.

*Theorems:* `C296_true_partial`, `C296_moved`, `C296_once_partial`, `C296_processes_refuted`, `C296_replaced_refuted`, `C296_broken`, `C296_dictionary_refuted`.

### C297 An interpreter has one version

The marker implementation_version of an environment is a version that is read back as that of its interpreter, and the version that requires-python is held against is the same.

*Status:* partial. the marker is always read back as the version, and is the same as the interpreter's for final ones; REFUTED for others: a candidate counts as the final version for requires-python. 

*Model and proof:* The creation of an environment is a function to the list of what is put where; where a link leads is computed from its text and its own directory, as the system does. The file with what is known about an interpreter is a state that a sequence of processes goes through, each with its own hash; theorems are by induction over the sequence. The marker is read by the transcribed parser of versions (C05). Processes run in the activation of C49. Files: `VenvProps.v`.

*Theorems:* `C297_marker`, `C297_final_partial`, `C297_candidate_refuted`.

### C298 Processes run in their environment

A process that is run in an environment finds the programs of that environment first and all other variables unchanged, and the variables of pkm itself and the caller's dictionary stay as they are; this holds also when pkm is replaced by the process and that fails.

*Status:* partial. proved for run_proc, and for exec_proc with variables; REFUTED for exec_proc without the optional argument: it always fails. 

*Model and proof:* The creation of an environment is a function to the list of what is put where; where a link leads is computed from its text and its own directory, as the system does. The file with what is known about an interpreter is a state that a sequence of processes goes through, each with its own hash; theorems are by induction over the sequence. The marker is read by the transcribed parser of versions (C05). Processes run in the activation of C49. Files: `VenvProps.v`.

*Theorems:* `C298_process`, `C298_exec_partial`, `C298_exec_refuted`.

### C299 The file of a new project says what was answered

The pyproject.toml of a project that is made from the template is read back with the name, version, description, readme, python, author and license that were answered; the required python allows every release of the chosen version and no other major version; and the file of a project for an existing environment names that environment.

*Status:* partial. proved for answers without quotes, backslashes and line ends; REFUTED for the license, which is always lost, and for answers and paths with quotes or backslashes. 

*Model and proof:* The template is the list of its texts and variables as jinja sees it; the rendered file is read by the transcribed toml reader (C38), so the theorem is about the text that is really written. The specifier is read by the transcribed parser of specifiers. Files: `ScaffoldProps.v`.

*Theorems:* `C299_answers_partial`, `C299_license_ignored`, `C299_license_refuted`, `C299_quote_refuted`, `C299_backslash_refuted`, `C299_python`, `C299_environment_partial`, `C299_windows_refuted`.

### C300 A hook of a build backend that fails never counts as success

Calling a hook gives its value exactly when the backend can be imported, has the hook, and the hook returns; it counts as missing exactly when the backend lacks it; and every failure is reported as a failure of the build.

*Status:* partial. success and missing hooks are characterised; failures are reported as such unless the hook ends the process with code 0 (REFUTED); a quote in the name of the temporary directory makes every hook fail (REFUTED). 

*Model and proof:* A backend is a function from names and arguments to what happens: failing imports, missing objects, exceptions, values that json cannot write, and ends of the process are all outcomes. The path in the script is quoted and read back character by character. A build is the list of what is done to the build environment together with its outcome. Files: `HookProps.v`.

*Theorems:* `C300_success`, `C300_undefined`, `C300_told`, `C300_failure_partial`, `C300_exit_refuted`, `C300_quote_refuted`.

### C301 A build asks for its requirements first and gives what the backend built

A build installs what the project requires, then what the backend asks for, then builds, and gives the file that the backend named in the directory it was told; the missing hook is reported exactly if only metadata was asked for and the backend cannot prepare it; and an editable build asks only the hooks for editable builds.

*Status:* partial. proved for the order and the result; REFUTED for metadata of editable builds, which is asked from the hook for other wheels, and for directories that are not told from the root. 

*Model and proof:* A backend is a function from names and arguments to what happens: failing imports, missing objects, exceptions, values that json cannot write, and ends of the process are all outcomes. The path in the script is quoted and read back character by character. A build is the list of what is done to the build environment together with its outcome. Files: `HookProps.v`.

*Theorems:* `C301_wheel`, `C301_sdist`, `C301_missing`, `C301_missing_told`, `C301_editable_refuted`, `C301_place_partial`, `C301_place_refuted`.

### C302 A paragraph of a report is broken into lines and nothing is lost

The lines of a paragraph have at most 80 characters and, joined by spaces, are the text; writing a paragraph always ends.

*Status:* partial. proved for texts with words of at most 78 characters; REFUTED for longer words: they fail, and after a space the loop never ends. 

*Model and proof:* The loop of a paragraph is a function with a bound on its rounds; ending means that one result is reached with every sufficient bound, not ending that no bound suffices. A list is printed by a body that may print further lists and may raise, so that nesting is arbitrary. Files: `ReportProps.v`.

*Theorems:* `C302_paragraph_partial`, `C302_long_word_refuted`, `C302_endless_refuted`.

### C303 The lists of a report stand where they belong

Each item of a list is printed at the place of the list, in order, with its sign or its number from 1; the text for an empty list is printed exactly if there are no items; the indentation after a list is the one before it; and the versions that match are the first three and the number of the others.

*Status:* partial. proved; REFUTED for the indentation after an error in a list. 

*Model and proof:* The loop of a paragraph is a function with a bound on its rounds; ending means that one result is reached with every sufficient bound, not ending that no bound suffices. A list is printed by a body that may print further lists and may raise, so that nesting is arbitrary. Files: `ReportProps.v`.

*Theorems:* `C303_ulist`, `C303_olist`, `C303_indentation`, `C303_indentation_numbers`, `C303_error_refuted`, `C303_versions`.

### C304 A new task runs under the name with which it was made

Making a task puts one script at the place its name says, below the tasks of the project, changes nothing that is there, and refuses to make it again; the new task is then listed, and runs under its name, with dashes or underscores. Outside of a project nothing is made.

*Status:* partial. the place, the listing and the run are proved for a free place in a tidy tree; REFUTED for the name of a module that is already imported, which is taken instead of the task, and for a place beside a package of its name or below another task. 

*Model and proof:* The tree is the one of C292. The name is split as the template does; putting the file is a recursion over the directories; tidy trees stay tidy by induction on them, so the theorem about listed tasks (C292) applies to the new tree. Files: `NewTaskProps.v`.

*Theorems:* `C304_made`, `C304_runs_partial`, `C304_others`, `C304_again`, `C304_imported_refuted`, `C304_beside_refuted`, `C304_outside`.

### C305 A project that is made from an environment fits it

The project's dependencies are the packages of the environment that were asked for, in order; each is written so that it is read back as a dependency on this package that the installed version satisfies, and requires-python so that the environment's interpreter satisfies it; and what the user asked for, extras and versions, is kept.

*Status:* partial. about the lines after the call of the other template, which fails as the code stands (C313); proved for standard versions without local labels and for final interpreters; REFUTED for the extras of a request, which are always lost, and for its versions: the project allows ones that the request rules out. 

*Model and proof:* The dependency of an installed version is the one of C160; its text is printed and read by the transcribed parser of dependencies (C43), so the theorem is about what is in the file. Files: `FromEnvProps.v`.

*Theorems:* `C305_requested`, `C305_fits_partial`, `C305_python_partial`, `C305_extras_refuted`, `C305_request_refuted`.

### C306 The report about a project shows each dependency and its state

Each dependency has one line, required ones first, that tells its requirement, the installed version or that there is none, and its group; the line is shown as it is; versions that the requirement rules out are told from others; and names of contexts are those of their classes with spaces before capitals.

*Status:* partial. the lines are proved, and shown as they are without brackets; REFUTED for every dependency with extras, which the screen takes for markup, and for installed versions that do not fit. 

*Model and proof:* The report is the one of C303; what the screen makes of a line is the transcribed reader of markup (C288), whose exact characterisation gives the refutation for all extras. Files: `StatusProps.v`.

*Theorems:* `C306_lines`, `C306_state`, `C306_shown_partial`, `C306_extras_refuted`, `C306_unfit_refuted`, `C306_options`, `C306_context`.

### C307 The environments and scripts of a zoo

An exported script is a copy of the environment's in the zoo's directory for scripts, and nothing else changes; every zoo can take scripts; a new environment is never put over something and is found under its name; and deleting one removes its directory and nothing else.

*Status:* partial. copies, new environments and deletions under a word are proved; REFUTED for every zoo that was made with the template, which cannot take scripts, and for deletions under other names: the zoo itself, its data and directories outside of it are deleted. 

*Model and proof:* The operations are functions on the file system of FsModel, with the copy and the directories of the templates (C59); what is not touched is stated for all paths. For all scripts of a package the induction keeps that no copy lands on a source. Files: `ZooProps.v`.

*Theorems:* `C307_exported`, `C307_all_exported`, `C307_loaded`, `C307_template_refuted`, `C307_created`, `C307_deleted_partial`, `C307_delete_refuted`.

### C308 The word after "pkm new" selects the template of that name

The listed templates are the outermost directories with a render.py; the name of a listed or local template yields exactly the command made of its file; another word yields the templates whose names begin with it, or all of them.

*Status:* partial. the list, the word and the command are proved for tidy trees of templates; REFUTED for templates in the working directory, which never work and break the installed one of their name and the list of all, and for names with a dash, which are listed but never loaded. 

*Model and proof:* The trees and the search for modules are those of the tasks (C292). The list is proved to be that of an inductive definition that knows no order of entries; the local templates are refuted for all trees, because the code asks for the module of a name without a location. Files: `CatalogProps.v`.

*Theorems:* `C308_listed`, `C308_runs_partial`, `C308_offered_partial`, `C308_local_refuted`, `C308_dash_refuted`.

### C309 A project whose version was bumped has that version when it is read again

Bumping major, minor or patch raises that number by one, sets the ones behind it to zero and keeps nothing else but the epoch; after saving, the project that is read from the file has the version that was returned; without saving the file stays; and bumping is refused exactly if the version has not three numbers or a name is missing.

*Status:* partial. proved for the documented particles; REFUTED for the particle name: a name that looks like a version, or begins like one, is read back as another version. 

*Model and proof:* The new version is the transcribed bump (C06), the file holds its text, and reading is the transcribed parser, so that the round trip of C04 is used after it is proved that bumping keeps the well-formedness it needs. Files: `BumpProps.v`.

*Theorems:* `C309_numbers`, `C309_text`, `C309_saved`, `C309_refused`, `C309_unsaved`, `C309_name_refuted`, `C309_name_cut_refuted`.

### C310 The hash of a file is that of its bytes, however they are read

Reading a stream in pieces yields exactly what it delivers until its end, for every size of the pieces and every pattern of short reads, although all pieces share one buffer; so the digest is that of the bytes one by one; and the pieces stay what they were.

*Status:* partial. pieces and digests are proved for all patterns of reads; REFUTED for pieces that are kept: they all become the last one, as the documentation of the function warns. 

*Model and proof:* The buffer is explicit: what is yielded are references into it, which are read either at once or at the end. The first is proved equal to the delivered pieces by induction, with the length of the buffer as invariant; the second is refuted for every two full pieces. Files: `SizeProps.v`.

*Theorems:* `C310_pieces`, `C310_digest`, `C310_kept_refuted`.

### C311 The sizes that are shown are right

A size is shown in the greatest unit that is not above it, with two decimals that are within half a hundredth of it, and a number below 1024; and the size of a directory is the sum of the sizes of all files below it.

*Status:* partial. unit and rounding are proved; REFUTED for the number below 1024 (1048575 bytes are 1024.00K), and for directories, whose own sizes are counted as well. 

*Model and proof:* Rounding is the half-even rounding of the exact quotient; the bound is arithmetic over N. The size of a directory is split into files and directories by induction over trees. Files: `SizeProps.v`.

*Theorems:* `C311_size`, `C311_bytes`, `C311_rounded_up_refuted`, `C311_directory_partial`, `C311_directory_refuted`.

### C312 A template asks its own questions, and overwrites files only if told to

The command of a template has the arguments of its setup function and one flag more, which has a short name exactly if none of them has it; the setup is called with the same values whether the flag is given or not; and files may be overwritten exactly if it is given.

*Status:* partial. proved for setup functions without a parameter named overwrite; REFUTED for those with one: any text as its default allows to overwrite files though nobody asked for it. 

*Model and proof:* Built on the definition and the execution of the commands of functions (C191, C192) and on the parser of command lines (C58). That the flag and the setup are apart is a statement about two runs; the refutation holds for every text as default and goes through the whole parser. Files: `TemplateCmdProps.v`.

*Theorems:* `C312_flag`, `C312_apart_partial`, `C312_parameter_refuted`.

### C313 A template can use another template

A setup function that renders another template by name executes the template that the name selects for a command, in the same directory and with the same permission to overwrite.

*Status:* partial. REFUTED: the helper calls _load_template, which the runner does not have (its method is load_template), so it fails for every template; the template project_from_env uses it and never makes a project. 

*Model and proof:* The helper asks the runner for a method that it does not have; the attributes of the class are listed in the model and looked up. The refutation is for all templates, and an example shows one that works as a command. Files: `CatalogProps.v`.

*Theorems:* `C313_refuted`, `C313_loadable_refuted`, `C313_from_env_refuted`.

### C314 What is written behind pkm run reaches the program or the task

pkm run executes the program, or in a project the task, that is named by the first word, with exactly the words that follow it, in the order they were given; a task outside of a project and a command without words are refused.

*Status:* partial. proved for programs whose name begins with no dash, plus or at sign, and for tasks whose first argument is absent or begins with no dash or plus and is not empty; REFUTED for the rest: an option directly behind a task is refused, and an empty word there drops all that follows. What the task does with the words is not modelled here. 

*Model and proof:* The command replaces itself by one that takes a program or by one that takes a task, by the next word, and the parser of the command line model reads what remains. The positional that takes any number of words takes all of them, by induction; before it, a word is taken for an option, for a field or for the end. Files: `RunCmdProps.v`.

*Theorems:* `C314_program_partial`, `C314_task_partial`, `C314_outside`, `C314_nothing`, `C314_first_refuted`.

## Trusted base

* The Coq 8.16.1 kernel (proofs are re-checked with `coqchk`).
* The fidelity of the hand transcription python -> Gallina.  Nothing is extracted or generated.
* Parts of python's library that the code relies on are transcribed as far as needed and are part of the
  model: `urllib.parse.urlsplit`, `csv`, `email.message_from_string`, `pathlib` joins, `shutil` moves, `str` methods.
* Axioms: none of our own.

## Not modelled

* The python interpreter itself (garbage collection, recursion limit, memory), unicode beyond 8 bit, the network,
  operating system permissions, symbolic links (except where stated), scheduling below the granularity of the
  modelled atomic steps.
* Prompts of the command line tool and the colours of its output.
* The styles that a rewritten TOML file keeps (comments, blank lines).
* Jinja, pep517 back ends and git themselves: they are arbitrary functions where the model meets them.
* The separate conda and torch repositories under `/repo/repositories` except where a model file says so.

## Assumptions

Output of `Print Assumptions` for every theorem that the manifest names (969 theorems). None of them uses an axiom; the output is the same for all of them:

| theorem | output |
|---|---|
| `C01_irreflexive` | Closed under the global context |
| `C01_transitive` | Closed under the global context |
| `C01_incomparable_iff` | Closed under the global context |
| `C01_trichotomy_partial` | Closed under the global context |
| `C01_total_refuted` | Closed under the global context |
| `C01_url_refuted` | Closed under the global context |
| `C02_equality_meaning` | Closed under the global context |
| `C02_equivalence` | Closed under the global context |
| `C02_congruence_partial` | Closed under the global context |
| `C02_hash_iff` | Closed under the global context |
| `C02_hash_refuted` | Closed under the global context |
| `C02_url_hash_refuted` | Closed under the global context |
| `C03_pep440_partial` | Closed under the global context |
| `C03_release_decides` | Closed under the global context |
| `C03_post_dev_refuted` | Closed under the global context |
| `C03_pre_dev_refuted` | Closed under the global context |
| `C03_local_refuted` | Closed under the global context |
| `C04_roundtrip` | Closed under the global context |
| `C04_roundtrip_in_context` | Closed under the global context |
| `C05_total` | Closed under the global context |
| `C05_case_partial` | Closed under the global context |
| `C05_pre_spelling_partial` | Closed under the global context |
| `C05_post_spelling_partial` | Closed under the global context |
| `C05_dev_spelling_partial` | Closed under the global context |
| `C05_separator_refuted` | Closed under the global context |
| `C05_discards_text_refuted` | Closed under the global context |
| `C05_alpha_refuted` | Closed under the global context |
| `C06_forward_partial` | Closed under the global context |
| `C06_backward` | Closed under the global context |
| `C06_prerelease_refuted` | Closed under the global context |
| `C06_unknown_particle_refuted` | Closed under the global context |
| `C07_intersection_partial` | Closed under the global context |
| `C07_exact_partial` | Closed under the global context |
| `C07_named_excluded_partial` | Closed under the global context |
| `C07_local_refuted` | Closed under the global context |
| `C07_local_exclusion_refuted` | Closed under the global context |
| `C07_post_refuted` | Closed under the global context |
| `C07_blacklist_refuted` | Closed under the global context |
| `C07_named_refuted` | Closed under the global context |
| `C08_union_partial` | Closed under the global context |
| `C08_same_start_partial` | Closed under the global context |
| `C08_apart_partial` | Closed under the global context |
| `C08_nested_refuted` | Closed under the global context |
| `C08_segment_refuted` | Closed under the global context |
| `C08_exclusion_refuted` | Closed under the global context |
| `C09_inverse_partial` | Closed under the global context |
| `C09_match` | Closed under the global context |
| `C09_difference_partial` | Closed under the global context |
| `C09_post_refuted` | Closed under the global context |
| `C10_all_sound_partial` | Closed under the global context |
| `C10_any_sound_partial` | Closed under the global context |
| `C10_ranges_included` | Closed under the global context |
| `C10_post_refuted` | Closed under the global context |
| `C10_empty_refuted` | Closed under the global context |
| `C11_argument_refuted` | Closed under the global context |
| `C12_conjunction_partial` | Closed under the global context |
| `C12_parse_refuted` | Closed under the global context |
| `C12_union_refuted` | Closed under the global context |
| `C13_clauses_partial` | Closed under the global context |
| `C13_ignored_tail_refuted` | Closed under the global context |
| `C14_roundtrip_partial` | Closed under the global context |
| `C14_union_refuted` | Closed under the global context |
| `C14_compat_refuted` | Closed under the global context |
| `C19_others_untouched` | Closed under the global context |
| `C19_own_entries` | Closed under the global context |
| `C19_entries` | Closed under the global context |
| `C19_idempotent` | Closed under the global context |
| `C19_save_load` | Closed under the global context |
| `C20_unlock` | Closed under the global context |
| `C20_unlocked_not_preferred` | Closed under the global context |
| `C21_reorders` | Closed under the global context |
| `C21_repository` | Closed under the global context |
| `C21_one_per_env` | Closed under the global context |
| `C21_epoch_refuted` | Closed under the global context |
| `C40_unordered_seq` | Closed under the global context |
| `C40_unordered_mapping` | Closed under the global context |
| `C40_ordered` | Closed under the global context |
| `C40_ordered_sensitive` | Closed under the global context |
| `C41_groupby` | Closed under the global context |
| `C41_groupby_keys_once` | Closed under the global context |
| `C41_groupby_all` | Closed under the global context |
| `C41_distinct` | Closed under the global context |
| `C41_distinct_once` | Closed under the global context |
| `C41_partition` | Closed under the global context |
| `C41_argmax` | Closed under the global context |
| `C41_index_of` | Closed under the global context |
| `C41_pop` | Closed under the global context |
| `C41_single` | Closed under the global context |
| `C41_suffix_partial` | Closed under the global context |
| `C41_prefix` | Closed under the global context |
| `C41_remove_by_value` | Closed under the global context |
| `C41_get_or_put` | Closed under the global context |
| `C41_get_or_default_refuted` | Closed under the global context |
| `C41_empty_suffix_refuted` | Closed under the global context |
| `C41_to_list_refuted` | Closed under the global context |
| `C45_only_when_asked` | Closed under the global context |
| `C45_otherwise` | Closed under the global context |
| `C45_all_when_asked` | Closed under the global context |
| `C22_rollback_partial` | Closed under the global context |
| `C22_copy_tree_rollback_partial` | Closed under the global context |
| `C22_copy_twice_refuted` | Closed under the global context |
| `C22_set_order_refuted` | Closed under the global context |
| `C22_partial_write_refuted` | Closed under the global context |
| `C22_touch_refuted` | Closed under the global context |
| `C22_custom_copy_refuted` | Closed under the global context |
| `C23_copied_files_partial` | Closed under the global context |
| `C23_removed_file_refuted` | Closed under the global context |
| `C23_touch_refuted` | Closed under the global context |
| `C23_file_copy_ignored_below_refuted` | Closed under the global context |
| `C24_path_to` | Closed under the global context |
| `C24_root_refuted` | Closed under the global context |
| `C25_contained_is_relative_partial` | Closed under the global context |
| `C25_exact_partial` | Closed under the global context |
| `C25_sibling_refuted` | Closed under the global context |
| `C30_settled_once` | Closed under the global context |
| `C30_second_raises` | Closed under the global context |
| `C30_at_most_once` | Closed under the global context |
| `C30_sees_the_settled_state` | Closed under the global context |
| `C30_exactly_once` | Closed under the global context |
| `C30_value_was_given` | Closed under the global context |
| `C30_await_partial` | Closed under the global context |
| `C30_false_exception_refuted` | Closed under the global context |
| `C31_await_all` | Closed under the global context |
| `C31_await_all_failure` | Closed under the global context |
| `C31_cancel_partial` | Closed under the global context |
| `C31_cancel_success` | Closed under the global context |
| `C31_late_notice_refuted` | Closed under the global context |
| `C31_base_exception_refuted` | Closed under the global context |
| `C26_one_download_at_a_time` | Closed under the global context |
| `C26_nobody_waits_forever_partial` | Closed under the global context |
| `C26_waits_for_somebody_partial` | Closed under the global context |
| `C26_waiter_after_interrupt_refuted` | Closed under the global context |
| `C27_refreshing_requests_ask_the_server_partial` | Closed under the global context |
| `C27_update_ignored_after_a_hit_refuted` | Closed under the global context |
| `C27_stale_entry_is_final` | Closed under the global context |
| `C28_contacts_bounded` | Closed under the global context |
| `C28_always_ends` | Closed under the global context |
| `C28_headers_stay_home_partial` | Closed under the global context |
| `C28_credentials_leave_refuted` | Closed under the global context |
| `C29_exclusive_use_partial` | Closed under the global context |
| `C29_pooled_connections_open_and_distinct_partial` | Closed under the global context |
| `C29_limit` | Closed under the global context |
| `C29_closed_keeps_nothing` | Closed under the global context |
| `C29_racing_double_close_refuted` | Closed under the global context |
| `C56_print_parse` | Closed under the global context |
| `C56_reparse_partial` | Closed under the global context |
| `C56_schemeless_refuted` | Closed under the global context |
| `C56_opaque_refuted` | Closed under the global context |
| `C57_body_is_the_parts_in_order_partial` | Closed under the global context |
| `C57_no_closing_delimiter_refuted` | Closed under the global context |
| `C32_exactly_the_resolution` | Closed under the global context |
| `C32_right_ones_untouched` | Closed under the global context |
| `C32_no_needless_operation` | Closed under the global context |
| `C32_requests_recorded` | Closed under the global context |
| `C32_store_mode_partial` | Closed under the global context |
| `C32_store_mode_refuted` | Closed under the global context |
| `C32_unrelated_removed_refuted` | Closed under the global context |
| `C33_orphans_end` | Closed under the global context |
| `C33_orphans_exact_partial` | Closed under the global context |
| `C33_inapplicable_refuted` | Closed under the global context |
| `C33_uninstall_partial` | Closed under the global context |
| `C33_resolved_partial` | Closed under the global context |
| `C33_spelling_refuted` | Closed under the global context |
| `C34_ends` | Closed under the global context |
| `C34_own_files_gone` | Closed under the global context |
| `C34_other_files_stay_partial` | Closed under the global context |
| `C34_removed_directories` | Closed under the global context |
| `C34_no_empty_directory_left` | Closed under the global context |
| `C34_shared_pycache_refuted` | Closed under the global context |
| `C34_escape_refuted` | Closed under the global context |
| `C35_normalize_idempotent` | Closed under the global context |
| `C35_key_idempotent` | Closed under the global context |
| `C35_same_key_same_package` | Closed under the global context |
| `C35_same_package_same_key_partial` | Closed under the global context |
| `C35_runs_refuted` | Closed under the global context |
| `C36_best_wheel` | Closed under the global context |
| `C36_source_last` | Closed under the global context |
| `C36_nothing_usable` | Closed under the global context |
| `C37_tampered_rejected_partial` | Closed under the global context |
| `C37_unrecorded_rejected` | Closed under the global context |
| `C37_installed_record_partial` | Closed under the global context |
| `C37_metadata_tampered_refuted` | Closed under the global context |
| `C37_missing_file_refuted` | Closed under the global context |
| `C37_unlisted_file_refuted` | Closed under the global context |
| `C15_resolution_is_solution_partial` | Closed under the global context |
| `C15_required_twice_refuted` | Closed under the global context |
| `C15_shared_requirements_refuted` | Closed under the global context |
| `C15_post_release_refuted` | Closed under the global context |
| `C16_windows_partition_partial` | Closed under the global context |
| `C16_post_release_refuted` | Closed under the global context |
| `C17_backtrack_replays` | Closed under the global context |
| `C17_backtrack_exact` | Closed under the global context |
| `C18_no_solution_refuted` | Closed under the global context |
| `C18_no_solution_real_refuted` | Closed under the global context |
| `C18_complete_refuted` | Closed under the global context |
| `C18_complete_real_refuted` | Closed under the global context |
| `C18_difference_partial` | Closed under the global context |
| `C61_assertion_error_refuted` | Closed under the global context |
| `C61_index_error_refuted` | Closed under the global context |
| `C60_round_trip_partial` | Closed under the global context |
| `C60_line_break_refuted` | Closed under the global context |
| `C60_blank_refuted` | Closed under the global context |
| `C60_empty_import_refuted` | Closed under the global context |
| `C55_computed_once_partial` | Closed under the global context |
| `C55_invalidated_refuted` | Closed under the global context |
| `C49_environment_partial` | Closed under the global context |
| `C49_zoo_partial` | Closed under the global context |
| `C49_nested_partial` | Closed under the global context |
| `C49_empty_path_refuted` | Closed under the global context |
| `C49_deleted_path_refuted` | Closed under the global context |
| `C50_accepted_is_compatible` | Closed under the global context |
| `C50_compatible_is_accepted_partial` | Closed under the global context |
| `C50_single_tag` | Closed under the global context |
| `C50_malformed_alternative_refuted` | Closed under the global context |
| `C50_musl_refuted` | Closed under the global context |
| `C44_first_match_answers` | Closed under the global context |
| `C44_bound_repository_answers` | Closed under the global context |
| `C44_bound_to_unknown` | Closed under the global context |
| `C44_url_answer_partial` | Closed under the global context |
| `C44_composite_is_lawful` | Closed under the global context |
| `C44_unmatched_url_refuted` | Closed under the global context |
| `C44_spelling_refuted` | Closed under the global context |
| `C44_failing_repository_refuted` | Closed under the global context |
| `C46_chain_terminates` | Closed under the global context |
| `C46_chain_partial` | Closed under the global context |
| `C46_nearest_first_partial` | Closed under the global context |
| `C46_global_refuted` | Closed under the global context |
| `C46_same_directory_refuted` | Closed under the global context |
| `C47_own_names_partial` | Closed under the global context |
| `C47_distinct_partial` | Closed under the global context |
| `C47_binding_by_name_partial` | Closed under the global context |
| `C47_same_definition_refuted` | Closed under the global context |
| `C47_bind_only_refuted` | Closed under the global context |
| `C47_inline_refuted` | Closed under the global context |
| `C48_operation_exact` | Closed under the global context |
| `C48_removed_has_no_binding` | Closed under the global context |
| `C48_operations_partial` | Closed under the global context |
| `C48_after_loading_refuted` | Closed under the global context |
| `C48_instance_binding_refuted` | Closed under the global context |
| `C62_composite_answers_fit_partial` | Closed under the global context |
| `C62_projects_refuted` | Closed under the global context |
| `C51_terminates` | Closed under the global context |
| `C51_cycle_rejected` | Closed under the global context |
| `C51_exact_partial` | Closed under the global context |
| `C51_unpublished` | Closed under the global context |
| `C51_exact_refuted` | Closed under the global context |
| `C52_key` | Closed under the global context |
| `C52_whole_partial` | Closed under the global context |
| `C52_hit` | Closed under the global context |
| `C52_metadata_kind_refuted` | Closed under the global context |
| `C52_crash_refuted` | Closed under the global context |
| `C52_version_refuted` | Closed under the global context |
| `C42_precedence_partial` | Closed under the global context |
| `C42_inside` | Closed under the global context |
| `C42_print_parse` | Closed under the global context |
| `C42_errors` | Closed under the global context |
| `C42_extra` | Closed under the global context |
| `C42_version_atom` | Closed under the global context |
| `C42_text_atom` | Closed under the global context |
| `C42_text_order` | Closed under the global context |
| `C42_in_atom` | Closed under the global context |
| `C42_letter_refuted` | Closed under the global context |
| `C42_arbitrary_refuted` | Closed under the global context |
| `C42_in_extra_refuted` | Closed under the global context |
| `C42_text_equality_refuted` | Closed under the global context |
| `C43_parsed_partial` | Closed under the global context |
| `C43_constructed_partial` | Closed under the global context |
| `C43_shape` | Closed under the global context |
| `C43_url_marker_refuted` | Closed under the global context |
| `C43_union_refuted` | Closed under the global context |
| `C43_digit_name_refuted` | Closed under the global context |
| `C43_case_refuted` | Closed under the global context |
| `C53_clean_partial` | Closed under the global context |
| `C53_referenced_stays` | Closed under the global context |
| `C53_unreferenced_goes` | Closed under the global context |
| `C53_outside` | Closed under the global context |
| `C53_only_removes` | Closed under the global context |
| `C53_container_refuted` | Closed under the global context |
| `C53_spelling_refuted` | Closed under the global context |
| `C53_shadowed_refuted` | Closed under the global context |
| `C63_never_reused` | Closed under the global context |
| `C63_second_install_fails` | Closed under the global context |
| `C63_reuse_refuted` | Closed under the global context |
| `C63_first_install` | Closed under the global context |
| `C39_write_read` | Closed under the global context |
| `C39_write_others` | Closed under the global context |
| `C39_write_above_partial` | Closed under the global context |
| `C39_write_fails_iff` | Closed under the global context |
| `C39_pop` | Closed under the global context |
| `C39_pop_fails_iff` | Closed under the global context |
| `C39_write_pop` | Closed under the global context |
| `C39_false_value_refuted` | Closed under the global context |
| `C64_load_save_partial` | Closed under the global context |
| `C64_tool_table_refuted` | Closed under the global context |
| `C64_tool_table_always` | Closed under the global context |
| `C64_unknown_setting_refuted` | Closed under the global context |
| `C64_contact_stable_iff` | Closed under the global context |
| `C64_contact_grows_refuted` | Closed under the global context |
| `C65_dependencies` | Closed under the global context |
| `C65_plain_partial` | Closed under the global context |
| `C65_marker_unguarded` | Closed under the global context |
| `C65_marker_refuted` | Closed under the global context |
| `C65_letter_refuted` | Closed under the global context |
| `C66_clean_partial` | Closed under the global context |
| `C66_total` | Closed under the global context |
| `C66_spelling_refuted` | Closed under the global context |
| `C67_existing` | Closed under the global context |
| `C67_place` | Closed under the global context |
| `C67_outside_partial` | Closed under the global context |
| `C67_deletes_always` | Closed under the global context |
| `C67_deletes_refuted` | Closed under the global context |
| `C68_file_partial` | Closed under the global context |
| `C68_reference_partial` | Closed under the global context |
| `C68_extras_grow` | Closed under the global context |
| `C68_extras_refuted` | Closed under the global context |
| `C68_tables_refuted` | Closed under the global context |
| `C68_scripts` | Closed under the global context |
| `C68_gui_refuted` | Closed under the global context |
| `C68_same_name_refuted` | Closed under the global context |
| `C69_built_iff` | Closed under the global context |
| `C69_ends` | Closed under the global context |
| `C69_missing_refuted` | Closed under the global context |
| `C69_twice_refuted` | Closed under the global context |
| `C69_root_refuted` | Closed under the global context |
| `C69_group_of` | Closed under the global context |
| `C69_parent` | Closed under the global context |
| `C70_remove_partial` | Closed under the global context |
| `C70_add_remove_partial` | Closed under the global context |
| `C70_relative_refuted` | Closed under the global context |
| `C38_string_partial` | Closed under the global context |
| `C38_backslash_refuted` | Closed under the global context |
| `C38_value_partial` | Closed under the global context |
| `C38_document_partial` | Closed under the global context |
| `C38_number_at_end_refuted` | Closed under the global context |
| `C38_empty_table_refuted` | Closed under the global context |
| `C71_line_end_partial` | Closed under the global context |
| `C71_comment_at_end_refuted` | Closed under the global context |
| `C72_literal_partial` | Closed under the global context |
| `C72_call_refuted` | Closed under the global context |
| `C54_bounded_partial` | Closed under the global context |
| `C54_once_partial` | Closed under the global context |
| `C54_settled_partial` | Closed under the global context |
| `C54_cancel_too_late_partial` | Closed under the global context |
| `C54_cancel_refuted` | Closed under the global context |
| `C54_cancel_kills_refuted` | Closed under the global context |
| `C73_queue_kept_partial` | Closed under the global context |
| `C73_close_hangs_refuted` | Closed under the global context |
| `C73_churn_refuted` | Closed under the global context |
| `C59_nothing_lost_partial` | Closed under the global context |
| `C59_refused_partial` | Closed under the global context |
| `C59_failure_partial` | Closed under the global context |
| `C59_doubled_refuted` | Closed under the global context |
| `C59_escape_refuted` | Closed under the global context |
| `C74_exact_partial` | Closed under the global context |
| `C74_in_place_partial` | Closed under the global context |
| `C74_preserved_refuted` | Closed under the global context |
| `C74_control_files_refuted` | Closed under the global context |
| `C58_understood_partial` | Closed under the global context |
| `C58_ends_partial` | Closed under the global context |
| `C58_commands` | Closed under the global context |
| `C58_whole` | Closed under the global context |
| `C58_defaults_partial` | Closed under the global context |
| `C58_field_name` | Closed under the global context |
| `C58_subfields` | Closed under the global context |
| `C58_repeated` | Closed under the global context |
| `C58_empty_word_refuted` | Closed under the global context |
| `C58_dash_refuted` | Closed under the global context |
| `C58_flag_value_refuted` | Closed under the global context |
| `C58_empty_value_refuted` | Closed under the global context |
| `C58_twice_refuted` | Closed under the global context |
| `C58_swallowed_refuted` | Closed under the global context |
| `C106_opened_partial` | Closed under the global context |
| `C106_works_partial` | Closed under the global context |
| `C107_one_version_partial` | Closed under the global context |
| `C107_one_version_refuted` | Closed under the global context |
| `C108_visible` | Closed under the global context |
| `C108_prerelease_refuted` | Closed under the global context |
| `C109_lower_case_partial` | Closed under the global context |
| `C109_name_refuted` | Closed under the global context |
| `C110_required` | Closed under the global context |
| `C111_consumed` | Closed under the global context |
| `C111_twice` | Closed under the global context |
| `C111_same_refuted` | Closed under the global context |
| `C112_match` | Closed under the global context |
| `C112_offered` | Closed under the global context |
| `C112_artifacts` | Closed under the global context |
| `C113_only_one` | Closed under the global context |
| `C113_metadata_refuted` | Closed under the global context |
| `C114_fails_iff` | Closed under the global context |
| `C114_other_versions_refuted` | Closed under the global context |
| `C115_wheel` | Closed under the global context |
| `C115_sdist_partial` | Closed under the global context |
| `C115_dash_refuted` | Closed under the global context |
| `C116_links_partial` | Closed under the global context |
| `C116_links_refuted` | Closed under the global context |
| `C117_verified` | Closed under the global context |
| `C118_stuck` | Closed under the global context |
| `C118_retry_refuted` | Closed under the global context |
| `C119_inside` | Closed under the global context |
| `C119_apart` | Closed under the global context |
| `C119_outside_refuted` | Closed under the global context |
| `C120_files` | Closed under the global context |
| `C120_page` | Closed under the global context |
| `C120_spelling_refuted` | Closed under the global context |
| `C121_csv` | Closed under the global context |
| `C121_records` | Closed under the global context |
| `C122_saved_iff` | Closed under the global context |
| `C122_loses` | Closed under the global context |
| `C122_again_refuted` | Closed under the global context |
| `C123_rows` | Closed under the global context |
| `C123_empty_line_refuted` | Closed under the global context |
| `C124_lines_partial` | Closed under the global context |
| `C124_fails_iff` | Closed under the global context |
| `C124_colon_refuted` | Closed under the global context |
| `C125_isolated_refuted` | Closed under the global context |
| `C126_read_partial` | Closed under the global context |
| `C126_missing` | Closed under the global context |
| `C126_folded` | Closed under the global context |
| `C126_shapes_refuted` | Closed under the global context |
| `C127_description_refuted` | Closed under the global context |
| `C128_lines_refuted` | Closed under the global context |
| `C129_authors_partial` | Closed under the global context |
| `C129_maintainers_refuted` | Closed under the global context |
| `C129_address_refuted` | Closed under the global context |
| `C130_upload_partial` | Closed under the global context |
| `C130_source` | Closed under the global context |
| `C130_fields` | Closed under the global context |
| `C130_build_refuted` | Closed under the global context |
| `C131_right_partial` | Closed under the global context |
| `C131_order_refuted` | Closed under the global context |
| `C131_shared_refuted` | Closed under the global context |
| `C132_stale_refuted` | Closed under the global context |
| `C132_pulled` | Closed under the global context |
| `C133_nothing_left` | Closed under the global context |
| `C134_url_partial` | Closed under the global context |
| `C134_port_refuted` | Closed under the global context |
| `C134_user_refuted` | Closed under the global context |
| `C134_case_refuted` | Closed under the global context |
| `C135_inside_partial` | Closed under the global context |
| `C135_outside_refuted` | Closed under the global context |
| `C136_group_refuted` | Closed under the global context |
| `C137_verifies_partial` | Closed under the global context |
| `C137_installs_partial` | Closed under the global context |
| `C137_dist_info_refuted` | Closed under the global context |
| `C138_contents` | Closed under the global context |
| `C138_again_partial` | Closed under the global context |
| `C138_modules_refuted` | Closed under the global context |
| `C138_flat_refuted` | Closed under the global context |
| `C139_anywhere_partial` | Closed under the global context |
| `C139_readme_refuted` | Closed under the global context |
| `C139_license_refuted` | Closed under the global context |
| `C140_sdist_partial` | Closed under the global context |
| `C140_nested_refuted` | Closed under the global context |
| `C140_license_refuted` | Closed under the global context |
| `C140_readme_refuted` | Closed under the global context |
| `C141_accepted_partial` | Closed under the global context |
| `C141_unbounded_partial` | Closed under the global context |
| `C141_major_refuted` | Closed under the global context |
| `C141_upper_refuted` | Closed under the global context |
| `C142_round` | Closed under the global context |
| `C142_file` | Closed under the global context |
| `C142_name_refuted` | Closed under the global context |
| `C143_none` | Closed under the global context |
| `C143_place_partial` | Closed under the global context |
| `C143_project_partial` | Closed under the global context |
| `C143_wheel_partial` | Closed under the global context |
| `C143_case_refuted` | Closed under the global context |
| `C144_name_refuted` | Closed under the global context |
| `C144_missing_refuted` | Closed under the global context |
| `C145_every` | Closed under the global context |
| `C145_group` | Closed under the global context |
| `C145_single` | Closed under the global context |
| `C145_only` | Closed under the global context |
| `C145_answer` | Closed under the global context |
| `C146_found_partial` | Closed under the global context |
| `C146_spelling_refuted` | Closed under the global context |
| `C147_usable_partial` | Closed under the global context |
| `C147_spoiled_refuted` | Closed under the global context |
| `C148_wheel` | Closed under the global context |
| `C148_sdist_partial` | Closed under the global context |
| `C148_local_refuted` | Closed under the global context |
| `C148_dash_refuted` | Closed under the global context |
| `C149_made_up_refuted` | Closed under the global context |
| `C149_bounds_partial` | Closed under the global context |
| `C150_project` | Closed under the global context |
| `C150_distribution_refuted` | Closed under the global context |
| `C151_one_partial` | Closed under the global context |
| `C151_none` | Closed under the global context |
| `C151_case_refuted` | Closed under the global context |
| `C152_stay_partial` | Closed under the global context |
| `C152_removed_refuted` | Closed under the global context |
| `C153_healthy_partial` | Closed under the global context |
| `C153_prefers` | Closed under the global context |
| `C153_updates_refuted` | Closed under the global context |
| `C154_asked_partial` | Closed under the global context |
| `C154_recorded` | Closed under the global context |
| `C154_twice_refuted` | Closed under the global context |
| `C154_reserved_refuted` | Closed under the global context |
| `C155_added_partial` | Closed under the global context |
| `C155_forgotten_refuted` | Closed under the global context |
| `C156_asked_partial` | Closed under the global context |
| `C156_vanishes_refuted` | Closed under the global context |
| `C157_newest_partial` | Closed under the global context |
| `C158_specified_partial` | Closed under the global context |
| `C158_unknown_refuted` | Closed under the global context |
| `C159_kept_partial` | Closed under the global context |
| `C159_broken_refuted` | Closed under the global context |
| `C160_self` | Closed under the global context |
| `C160_major_partial` | Closed under the global context |
| `C160_post_refuted` | Closed under the global context |
| `C160_local_refuted` | Closed under the global context |
| `C161_keys_partial` | Closed under the global context |
| `C161_self_update_refuted` | Closed under the global context |
| `C162_placed_partial` | Closed under the global context |
| `C162_twice_refuted` | Closed under the global context |
| `C163_recorded_partial` | Closed under the global context |
| `C163_complete_partial` | Closed under the global context |
| `C163_installer_refuted` | Closed under the global context |
| `C164_computed_partial` | Closed under the global context |
| `C164_verified_partial` | Closed under the global context |
| `C164_compiled_refuted` | Closed under the global context |
| `C165_untouched` | Closed under the global context |
| `C165_new_files` | Closed under the global context |
| `C166_files_partial` | Closed under the global context |
| `C166_directories_partial` | Closed under the global context |
| `C166_no_new_directories_partial` | Closed under the global context |
| `C166_overwritten_refuted` | Closed under the global context |
| `C166_scripts_directory_refuted` | Closed under the global context |
| `C166_empty_directory_refuted` | Closed under the global context |
| `C167_mismatch` | Closed under the global context |
| `C167_copy_partial` | Closed under the global context |
| `C167_left_behind_refuted` | Closed under the global context |
| `C167_script_lost_refuted` | Closed under the global context |
| `C168_kept` | Closed under the global context |
| `C168_twice_refuted` | Closed under the global context |
| `C168_foreign_record_refuted` | Closed under the global context |
| `C169_scripts_partial` | Closed under the global context |
| `C169_others_partial` | Closed under the global context |
| `C169_nested_refuted` | Closed under the global context |
| `C170_launchers_partial` | Closed under the global context |
| `C170_reference` | Closed under the global context |
| `C170_same_name_refuted` | Closed under the global context |
| `C171_known_parts` | Closed under the global context |
| `C171_headers_refuted` | Closed under the global context |
| `C172_version` | Closed under the global context |
| `C172_short_refuted` | Closed under the global context |
| `C173_subdir_partial` | Closed under the global context |
| `C173_own_platform` | Closed under the global context |
| `C173_apple_silicon_refuted` | Closed under the global context |
| `C173_i686_refuted` | Closed under the global context |
| `C174_offered_partial` | Closed under the global context |
| `C174_noarch_refuted` | Closed under the global context |
| `C174_conda_files_refuted` | Closed under the global context |
| `C175_series_partial` | Closed under the global context |
| `C175_alternatives_partial` | Closed under the global context |
| `C175_next_pre_release_refuted` | Closed under the global context |
| `C175_glued_star_refuted` | Closed under the global context |
| `C175_letter_refuted` | Closed under the global context |
| `C175_any_alternative_refuted` | Closed under the global context |
| `C176_builds_found` | Closed under the global context |
| `C176_none_found` | Closed under the global context |
| `C176_only_builds_partial` | Closed under the global context |
| `C176_longer_build_refuted` | Closed under the global context |
| `C176_several_builds_refuted` | Closed under the global context |
| `C177_not_newer_partial` | Closed under the global context |
| `C177_upper_bound_refuted` | Closed under the global context |
| `C177_exact_python_refuted` | Closed under the global context |
| `C177_above_refuted` | Closed under the global context |
| `C178_best` | Closed under the global context |
| `C178_nothing_usable` | Closed under the global context |
| `C179_found_partial` | Closed under the global context |
| `C179_capitals_refuted` | Closed under the global context |
| `C180_newest_first_partial` | Closed under the global context |
| `C180_letters_refuted` | Closed under the global context |
| `C181_written_partial` | Closed under the global context |
| `C181_extras_refuted` | Closed under the global context |
| `C181_marker_refuted` | Closed under the global context |
| `C182_lists` | Closed under the global context |
| `C182_file_partial` | Closed under the global context |
| `C182_lock_refuted` | Closed under the global context |
| `C182_remembered_refuted` | Closed under the global context |
| `C182_group_refuted` | Closed under the global context |
| `C183_removed` | Closed under the global context |
| `C183_file_partial` | Closed under the global context |
| `C183_memory_refuted` | Closed under the global context |
| `C184_installed_partial` | Closed under the global context |
| `C184_again_refuted` | Closed under the global context |
| `C185_sent_partial` | Closed under the global context |
| `C185_stale_refuted` | Closed under the global context |
| `C185_resumed_refuted` | Closed under the global context |
| `C186_kept` | Closed under the global context |
| `C186_forgotten` | Closed under the global context |
| `C186_password` | Closed under the global context |
| `C186_lost_refuted` | Closed under the global context |
| `C186_used_refuted` | Closed under the global context |
| `C187_plain` | Closed under the global context |
| `C187_attached` | Closed under the global context |
| `C187_before_refuted` | Closed under the global context |
| `C187_after_refuted` | Closed under the global context |
| `C187_executor_refuted` | Closed under the global context |
| `C188_own` | Closed under the global context |
| `C188_found` | Closed under the global context |
| `C188_installed_partial` | Closed under the global context |
| `C188_dotted_refuted` | Closed under the global context |
| `C189_nearest` | Closed under the global context |
| `C189_refused` | Closed under the global context |
| `C189_named` | Closed under the global context |
| `C189_global` | Closed under the global context |
| `C189_alone_refuted` | Closed under the global context |
| `C189_site_refuted` | Closed under the global context |
| `C189_without_tasks_refuted` | Closed under the global context |
| `C190_project_partial` | Closed under the global context |
| `C190_bound` | Closed under the global context |
| `C190_environment_refuted` | Closed under the global context |
| `C190_app_refuted` | Closed under the global context |
| `C191_distinct` | Closed under the global context |
| `C191_named` | Closed under the global context |
| `C191_help_refuted` | Closed under the global context |
| `C192_called_partial` | Closed under the global context |
| `C192_defaults` | Closed under the global context |
| `C192_read` | Closed under the global context |
| `C192_varargs_refuted` | Closed under the global context |
| `C192_required_refuted` | Closed under the global context |
| `C192_underscore_refuted` | Closed under the global context |
| `C192_bool_refuted` | Closed under the global context |
| `C192_help_refuted` | Closed under the global context |
| `C193_documented_partial` | Closed under the global context |
| `C193_first_line_refuted` | Closed under the global context |
| `C194_parsed_partial` | Closed under the global context |
| `C194_order` | Closed under the global context |
| `C194_called_partial` | Closed under the global context |
| `C194_surplus_refuted` | Closed under the global context |
| `C194_words_refuted` | Closed under the global context |
| `C195_nested_partial` | Closed under the global context |
| `C195_read` | Closed under the global context |
| `C195_attributes` | Closed under the global context |
| `C195_text_partial` | Closed under the global context |
| `C195_void_refuted` | Closed under the global context |
| `C195_open_refuted` | Closed under the global context |
| `C195_text_refuted` | Closed under the global context |
| `C196_found` | Closed under the global context |
| `C196_along` | Closed under the global context |
| `C196_no_matchers` | Closed under the global context |
| `C196_order_refuted` | Closed under the global context |
| `C197_row` | Closed under the global context |
| `C197_backup` | Closed under the global context |
| `C197_remembered_partial` | Closed under the global context |
| `C197_known_partial` | Closed under the global context |
| `C197_compatible` | Closed under the global context |
| `C197_empty_refuted` | Closed under the global context |
| `C197_void_refuted` | Closed under the global context |
| `C197_driver_refuted` | Closed under the global context |
| `C197_module_refuted` | Closed under the global context |
| `C198_answered` | Closed under the global context |
| `C198_all` | Closed under the global context |
| `C198_order` | Closed under the global context |
| `C198_cuda_partial` | Closed under the global context |
| `C198_cuda_refuted` | Closed under the global context |
| `C198_old_refuted` | Closed under the global context |
| `C198_patch_refuted` | Closed under the global context |
| `C198_named_refuted` | Closed under the global context |
| `C199_found_partial` | Closed under the global context |
| `C199_all` | Closed under the global context |
| `C199_hidden_refuted` | Closed under the global context |
| `C199_name_refuted` | Closed under the global context |
| `C200_main_partial` | Closed under the global context |
| `C200_own` | Closed under the global context |
| `C200_plugins` | Closed under the global context |
| `C200_underscores_refuted` | Closed under the global context |
| `C200_suffix_refuted` | Closed under the global context |
| `C201_installed` | Closed under the global context |
| `C201_absent` | Closed under the global context |
| `C201_uninstalled` | Closed under the global context |
| `C201_broken_refuted` | Closed under the global context |
| `C202_scripts_partial` | Closed under the global context |
| `C202_same_refuted` | Closed under the global context |
| `C202_digit_refuted` | Closed under the global context |
| `C203_first_partial` | Closed under the global context |
| `C203_pth_refuted` | Closed under the global context |
| `C203_path_partial` | Closed under the global context |
| `C203_unset` | Closed under the global context |
| `C203_path_refuted` | Closed under the global context |
| `C203_known_refuted` | Closed under the global context |
| `C204_lines` | Closed under the global context |
| `C204_missing` | Closed under the global context |
| `C204_orphan` | Closed under the global context |
| `C204_removed_refuted` | Closed under the global context |
| `C205_restored_partial` | Closed under the global context |
| `C205_told` | Closed under the global context |
| `C205_others` | Closed under the global context |
| `C205_overlap_refuted` | Closed under the global context |
| `C205_added_refuted` | Closed under the global context |
| `C206_same_partial` | Closed under the global context |
| `C206_order` | Closed under the global context |
| `C206_enter_refuted` | Closed under the global context |
| `C206_handled_refuted` | Closed under the global context |
| `C206_notify_refuted` | Closed under the global context |
| `C207_resumed_partial` | Closed under the global context |
| `C207_around` | Closed under the global context |
| `C207_again_refuted` | Closed under the global context |
| `C207_beside_refuted` | Closed under the global context |
| `C208_lines` | Closed under the global context |
| `C208_exact_partial` | Closed under the global context |
| `C208_stripped` | Closed under the global context |
| `C208_closed_refuted` | Closed under the global context |
| `C209_found_partial` | Closed under the global context |
| `C209_newest` | Closed under the global context |
| `C209_order_partial` | Closed under the global context |
| `C209_started_refuted` | Closed under the global context |
| `C209_chatty_refuted` | Closed under the global context |
| `C209_path_refuted` | Closed under the global context |
| `C210_names` | Closed under the global context |
| `C210_taken` | Closed under the global context |
| `C210_all` | Closed under the global context |
| `C210_path` | Closed under the global context |
| `C210_sign_refuted` | Closed under the global context |
| `C210_search_refuted` | Closed under the global context |
| `C211_newest` | Closed under the global context |
| `C211_none` | Closed under the global context |
| `C211_meaning` | Closed under the global context |
| `C211_same_minor_partial` | Closed under the global context |
| `C211_candidate_refuted` | Closed under the global context |
| `C211_chosen_candidate_refuted` | Closed under the global context |
| `C250_refused` | Closed under the global context |
| `C250_unsigned` | Closed under the global context |
| `C251_installed_partial` | Closed under the global context |
| `C251_two_versions_refuted` | Closed under the global context |
| `C252_recorded_partial` | Closed under the global context |
| `C253_own_partial` | Closed under the global context |
| `C258_new_files_partial` | Closed under the global context |
| `C253_generated_refuted` | Closed under the global context |
| `C254_never` | Closed under the global context |
| `C254_refuted` | Closed under the global context |
| `C255_kept_partial` | Closed under the global context |
| `C255_leftover_refuted` | Closed under the global context |
| `C255_record_refuted` | Closed under the global context |
| `C256_never` | Closed under the global context |
| `C256_refuted` | Closed under the global context |
| `C257_refuted` | Closed under the global context |
| `C258_untouched_partial` | Closed under the global context |
| `C258_outside_refuted` | Closed under the global context |
| `C259_round_trip_partial` | Closed under the global context |
| `C259_percent_refuted` | Closed under the global context |
| `C259_comment_refuted` | Closed under the global context |
| `C259_name_refuted` | Closed under the global context |
| `C259_default_refuted` | Closed under the global context |
| `C259_lost_refuted` | Closed under the global context |
| `C260_refused` | Closed under the global context |
| `C260_written_partial` | Closed under the global context |
| `C260_default_refuted` | Closed under the global context |
| `C261_loaded_partial` | Closed under the global context |
| `C261_colon_refuted` | Closed under the global context |
| `C261_default_refuted` | Closed under the global context |
| `C262_found` | Closed under the global context |
| `C262_no_file` | Closed under the global context |
| `C262_one_bad_refuted` | Closed under the global context |
| `C263_twice` | Closed under the global context |
| `C263_option_twice` | Closed under the global context |
| `C263_senseless` | Closed under the global context |
| `C263_percent` | Closed under the global context |
| `C264_zip_inside` | Closed under the global context |
| `C265_tar_inside_partial` | Closed under the global context |
| `C265_up_refuted` | Closed under the global context |
| `C265_absolute_refuted` | Closed under the global context |
| `C265_link_refuted` | Closed under the global context |
| `C266_zip_partial` | Closed under the global context |
| `C266_tar_partial` | Closed under the global context |
| `C266_collision_refuted` | Closed under the global context |
| `C267_unsupported` | Closed under the global context |
| `C267_mismatch` | Closed under the global context |
| `C268_answer_is_final` | Closed under the global context |
| `C268_endless_refuted` | Closed under the global context |
| `C268_endless_real_refuted` | Closed under the global context |
| `C269_over_partial` | Closed under the global context |
| `C269_stays_refuted` | Closed under the global context |
| `C270_shown_partial` | Closed under the global context |
| `C270_lost_refuted` | Closed under the global context |
| `C271_awake_partial` | Closed under the global context |
| `C271_asleep_refuted` | Closed under the global context |
| `C272_displayed` | Closed under the global context |
| `C273_shown_partial` | Closed under the global context |
| `C273_long_refuted` | Closed under the global context |
| `C274_listed` | Closed under the global context |
| `C274_taken_refuted` | Closed under the global context |
| `C275_spelled_partial` | Closed under the global context |
| `C275_field_flag_refuted` | Closed under the global context |
| `C276_bars_partial` | Closed under the global context |
| `C276_flags_refuted` | Closed under the global context |
| `C277_matched_partial` | Closed under the global context |
| `C277_group_refuted` | Closed under the global context |
| `C278_words` | Closed under the global context |
| `C278_letters` | Closed under the global context |
| `C279_given_refuted` | Closed under the global context |
| `C279_default_partial` | Closed under the global context |
| `C279_empty_refuted` | Closed under the global context |
| `C279_two_refuted` | Closed under the global context |
| `C280_clean` | Closed under the global context |
| `C280_succeeds` | Closed under the global context |
| `C281_home_refuted` | Closed under the global context |
| `C281_module_refuted` | Closed under the global context |
| `C281_partial` | Closed under the global context |
| `C282_dash_refuted` | Closed under the global context |
| `C282_linked_refuted` | Closed under the global context |
| `C282_project_partial` | Closed under the global context |
| `C282_again_partial` | Closed under the global context |
| `C282_published_refuted` | Closed under the global context |
| `C282_recorded` | Closed under the global context |
| `C282_choices` | Closed under the global context |
| `C283_calls_partial` | Closed under the global context |
| `C283_property_refuted` | Closed under the global context |
| `C283_repository_refuted` | Closed under the global context |
| `C284_metadata_partial` | Closed under the global context |
| `C284_nothing_else_partial` | Closed under the global context |
| `C284_file_partial` | Closed under the global context |
| `C284_tag_partial` | Closed under the global context |
| `C284_build_refuted` | Closed under the global context |
| `C284_plural_refuted` | Closed under the global context |
| `C284_any_file_refuted` | Closed under the global context |
| `C284_field_names` | Closed under the global context |
| `C285_credentials_partial` | Closed under the global context |
| `C285_distinct_partial` | Closed under the global context |
| `C285_one_line` | Closed under the global context |
| `C285_colon_refuted` | Closed under the global context |
| `C285_arguments` | Closed under the global context |
| `C286_nearest_partial` | Closed under the global context |
| `C286_missing` | Closed under the global context |
| `C286_moved_refuted` | Closed under the global context |
| `C286_name_refuted` | Closed under the global context |
| `C287_order` | Closed under the global context |
| `C287_apart_partial` | Closed under the global context |
| `C287_semicolon_refuted` | Closed under the global context |
| `C288_exactly` | Closed under the global context |
| `C288_any_mode` | Closed under the global context |
| `C288_extras_refuted` | Closed under the global context |
| `C288_slash_refuted` | Closed under the global context |
| `C289_shown_partial` | Closed under the global context |
| `C289_complete` | Closed under the global context |
| `C289_extras_refuted` | Closed under the global context |
| `C289_process_refuted` | Closed under the global context |
| `C290_written` | Closed under the global context |
| `C290_windows_refuted` | Closed under the global context |
| `C290_launcher_refuted` | Closed under the global context |
| `C290_arm_refuted` | Closed under the global context |
| `C290_kind` | Closed under the global context |
| `C291_exactly` | Closed under the global context |
| `C291_wheel_scripts` | Closed under the global context |
| `C291_space_refuted` | Closed under the global context |
| `C291_long_refuted` | Closed under the global context |
| `C291_window_scripts_refuted` | Closed under the global context |
| `C292_listed` | Closed under the global context |
| `C292_runs_partial` | Closed under the global context |
| `C292_dash_refuted` | Closed under the global context |
| `C292_beside_refuted` | Closed under the global context |
| `C292_installed_refuted` | Closed under the global context |
| `C292_none_installed_refuted` | Closed under the global context |
| `C293_project` | Closed under the global context |
| `C293_wheel_refuted` | Closed under the global context |
| `C293_platform_refuted` | Closed under the global context |
| `C294_newest_partial` | Closed under the global context |
| `C294_text_order_refuted` | Closed under the global context |
| `C294_prerelease_refuted` | Closed under the global context |
| `C294_no_archive_refuted` | Closed under the global context |
| `C295_interpreter` | Closed under the global context |
| `C295_settings` | Closed under the global context |
| `C295_inside` | Closed under the global context |
| `C295_refused` | Closed under the global context |
| `C295_lib64_partial` | Closed under the global context |
| `C295_lib64_refuted` | Closed under the global context |
| `C295_windows` | Closed under the global context |
| `C296_true_partial` | Closed under the global context |
| `C296_moved` | Closed under the global context |
| `C296_once_partial` | Closed under the global context |
| `C296_processes_refuted` | Closed under the global context |
| `C296_replaced_refuted` | Closed under the global context |
| `C296_broken` | Closed under the global context |
| `C296_dictionary_refuted` | Closed under the global context |
| `C297_marker` | Closed under the global context |
| `C297_final_partial` | Closed under the global context |
| `C297_candidate_refuted` | Closed under the global context |
| `C298_process` | Closed under the global context |
| `C298_exec_partial` | Closed under the global context |
| `C298_exec_refuted` | Closed under the global context |
| `C299_answers_partial` | Closed under the global context |
| `C299_license_ignored` | Closed under the global context |
| `C299_license_refuted` | Closed under the global context |
| `C299_quote_refuted` | Closed under the global context |
| `C299_backslash_refuted` | Closed under the global context |
| `C299_python` | Closed under the global context |
| `C299_environment_partial` | Closed under the global context |
| `C299_windows_refuted` | Closed under the global context |
| `C300_success` | Closed under the global context |
| `C300_undefined` | Closed under the global context |
| `C300_told` | Closed under the global context |
| `C300_failure_partial` | Closed under the global context |
| `C300_exit_refuted` | Closed under the global context |
| `C300_quote_refuted` | Closed under the global context |
| `C301_wheel` | Closed under the global context |
| `C301_sdist` | Closed under the global context |
| `C301_missing` | Closed under the global context |
| `C301_missing_told` | Closed under the global context |
| `C301_editable_refuted` | Closed under the global context |
| `C301_place_partial` | Closed under the global context |
| `C301_place_refuted` | Closed under the global context |
| `C302_paragraph_partial` | Closed under the global context |
| `C302_long_word_refuted` | Closed under the global context |
| `C302_endless_refuted` | Closed under the global context |
| `C303_ulist` | Closed under the global context |
| `C303_olist` | Closed under the global context |
| `C303_indentation` | Closed under the global context |
| `C303_indentation_numbers` | Closed under the global context |
| `C303_error_refuted` | Closed under the global context |
| `C303_versions` | Closed under the global context |
| `C304_made` | Closed under the global context |
| `C304_runs_partial` | Closed under the global context |
| `C304_others` | Closed under the global context |
| `C304_again` | Closed under the global context |
| `C304_imported_refuted` | Closed under the global context |
| `C304_beside_refuted` | Closed under the global context |
| `C304_outside` | Closed under the global context |
| `C305_requested` | Closed under the global context |
| `C305_fits_partial` | Closed under the global context |
| `C305_python_partial` | Closed under the global context |
| `C305_extras_refuted` | Closed under the global context |
| `C305_request_refuted` | Closed under the global context |
| `C306_lines` | Closed under the global context |
| `C306_state` | Closed under the global context |
| `C306_shown_partial` | Closed under the global context |
| `C306_extras_refuted` | Closed under the global context |
| `C306_unfit_refuted` | Closed under the global context |
| `C306_options` | Closed under the global context |
| `C306_context` | Closed under the global context |
| `C307_exported` | Closed under the global context |
| `C307_all_exported` | Closed under the global context |
| `C307_loaded` | Closed under the global context |
| `C307_template_refuted` | Closed under the global context |
| `C307_created` | Closed under the global context |
| `C307_deleted_partial` | Closed under the global context |
| `C307_delete_refuted` | Closed under the global context |
| `C308_listed` | Closed under the global context |
| `C308_runs_partial` | Closed under the global context |
| `C308_offered_partial` | Closed under the global context |
| `C308_local_refuted` | Closed under the global context |
| `C308_dash_refuted` | Closed under the global context |
| `C309_numbers` | Closed under the global context |
| `C309_text` | Closed under the global context |
| `C309_saved` | Closed under the global context |
| `C309_refused` | Closed under the global context |
| `C309_unsaved` | Closed under the global context |
| `C309_name_refuted` | Closed under the global context |
| `C309_name_cut_refuted` | Closed under the global context |
| `C310_pieces` | Closed under the global context |
| `C310_digest` | Closed under the global context |
| `C310_kept_refuted` | Closed under the global context |
| `C311_size` | Closed under the global context |
| `C311_bytes` | Closed under the global context |
| `C311_rounded_up_refuted` | Closed under the global context |
| `C311_directory_partial` | Closed under the global context |
| `C311_directory_refuted` | Closed under the global context |
| `C312_flag` | Closed under the global context |
| `C312_apart_partial` | Closed under the global context |
| `C312_parameter_refuted` | Closed under the global context |
| `C313_refuted` | Closed under the global context |
| `C313_loadable_refuted` | Closed under the global context |
| `C313_from_env_refuted` | Closed under the global context |
| `C314_program_partial` | Closed under the global context |
| `C314_task_partial` | Closed under the global context |
| `C314_outside` | Closed under the global context |
| `C314_nothing` | Closed under the global context |
| `C314_first_refuted` | Closed under the global context |
