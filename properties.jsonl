{"id": "C01", "title": "Version comparison is a strict total order", "statement": "For any versions a, b, c: never a < a; a < b and b < c imply a < c; and exactly one of a < b, a == b, b < a holds. So sorting a list of versions has one answer up to equal versions.", "quantifier": "all triples of versions (url, named and standard, any epoch, release length, pre/post/dev parts and local label)", "why_tests_cant": "trichotomy and transitivity range over all triples of an infinite set; a test samples a handful of pairs", "anchors": ["pkm/src/pkm/api/versions/version.py: _less, Version.__lt__, StandardVersion.__eq__, StandardVersion.normalized, UrlVersion.__eq__"]}
{"id": "C02", "title": "Equal versions are interchangeable (equivalence, congruence, hash contract)", "statement": "== on versions is an equivalence relation; equal versions compare identically against every third version; and equal versions have equal hashes, so sets and dicts keyed by versions never hold two equal versions.", "quantifier": "all pairs/triples of versions", "why_tests_cant": "universally quantified over all spellings of the same version", "anchors": ["pkm/src/pkm/api/versions/version.py: StandardVersion.equals_to, StandardVersion.__hash__, StandardVersion.standartize, UrlVersion.__eq__"]}
{"id": "C03", "title": "Version order agrees with PEP 440", "statement": "For standard versions, a < b exactly when PEP 440 orders a before b (dev < pre < final < post within one release, local labels after, numeric local segments compared as numbers).", "quantifier": "all pairs of standard versions", "why_tests_cant": "infinite set of pairs; the counterexamples need specific combinations of pre/post/dev/local parts", "anchors": ["pkm/src/pkm/api/versions/version.py: _less"]}
{"id": "C04", "title": "Printing then parsing a version gives the same version back", "statement": "For every well-formed standard version v (what the parser can produce), parsing str(v) yields a version with exactly the same fields as v.", "quantifier": "all well-formed standard versions with arbitrarily large numbers and arbitrary local labels", "why_tests_cant": "unbounded numbers, release lengths and labels", "anchors": ["pkm/src/pkm/api/versions/version.py: StandardVersion.__str__", "pkm/src/pkm/api/versions/version_parser.py: VersionParser.read_version, parse_version"]}
{"id": "C05", "title": "Version parsing is total and uses the whole text", "statement": "Parsing any text as a version returns a version (falling back to a named version) and never discards part of the text: two texts that name the same standard version differ only by spelling (case, separators, zero padding, v prefix, quotes).", "quantifier": "all input strings", "why_tests_cant": "every string is an input", "anchors": ["pkm/src/pkm/api/versions/version_parser.py: parse_version, VersionParser.read_version"]}
{"id": "C06", "title": "Bumping a version moves it strictly forward", "statement": "For every three-part version v and every supported particle (major, minor, patch, a, b, rc), the bumped version is strictly greater than v, and bumping with anything else is rejected.", "quantifier": "all three-part versions and all particle strings", "why_tests_cant": "all versions times all strings", "anchors": ["pkm/src/pkm/api/versions/version.py: StandardVersion.bump", "pkm/src/pkm/api/projects/project.py: Project.bump_version"]}
{"id": "C07", "title": "Specifier intersection allows exactly the common versions", "statement": "For specifiers a and b, a.intersect_with(b) allows a version exactly when both a and b allow it; in particular the order of the operands does not matter.", "quantifier": "all pairs of specifiers obtainable from the API, all versions", "why_tests_cant": "specifiers form an infinite recursive algebra", "anchors": ["pkm/src/pkm/api/versions/version_specifiers.py: VersionSpecifier.intersect_with (all classes), StandardVersionRange._intersect_with, allows_version"]}
{"id": "C08", "title": "Specifier union allows exactly the versions either side allows", "statement": "For specifiers a and b, a.union_with(b) allows a version exactly when a or b allows it.", "quantifier": "all pairs of specifiers obtainable from the API, all versions", "why_tests_cant": "infinite recursive algebra", "anchors": ["pkm/src/pkm/api/versions/version_specifiers.py: union_with (all classes), StandardVersionRange._union_with, VersionsUnion.union_with"]}
{"id": "C09", "title": "Specifier inverse is the complement", "statement": "a.inverse() allows a version exactly when a does not; hence a.inverse().inverse() is equivalent to a, and difference is set difference.", "quantifier": "all specifiers, all versions", "why_tests_cant": "infinite algebra, all versions", "anchors": ["pkm/src/pkm/api/versions/version_specifiers.py: inverse (all classes), difference_from"]}
{"id": "C10", "title": "allows_all / allows_any decide inclusion and overlap", "statement": "a.allows_all(b) is true exactly when every version allowed by b is allowed by a, and a.allows_any(b) exactly when some version is allowed by both.", "quantifier": "all pairs of specifiers", "why_tests_cant": "quantifies over all versions inside the specification itself", "anchors": ["pkm/src/pkm/api/versions/version_specifiers.py: VersionSpecifier.allows_all, allows_any, __eq__"]}
{"id": "C11", "title": "Specifier operations do not change their operands", "statement": "union_with, intersect_with, inverse and difference_from leave both operands allowing exactly the versions they allowed before the call.", "quantifier": "all pairs of specifiers, all call histories", "why_tests_cant": "aliasing bugs only show after particular histories of calls on shared objects", "anchors": ["pkm/src/pkm/api/versions/version_specifiers.py: VersionsUnion.union_with, VersionsUnion.__post_init__"]}
{"id": "C12", "title": "Specifier operations never crash", "statement": "Every sequence of union, intersection, inverse and difference applied to parsed specifiers returns a specifier; none of them raises.", "quantifier": "all operation sequences over parsed specifiers", "why_tests_cant": "needs all reachable specifier values", "anchors": ["pkm/src/pkm/api/versions/version_specifiers.py: all classes"]}
{"id": "C13", "title": "A parsed requirement means what it says", "statement": "Parsing 'op v' gives a specifier allowing exactly: >= v, > v, <= v, < v, == v, != v per the version order; == v.* and ~= v give the half-open ranges; a comma separated list is the conjunction of its clauses.", "quantifier": "all operator/version texts and all clause lists", "why_tests_cant": "all versions and clause lists", "anchors": ["pkm/src/pkm/api/versions/version_parser.py: VersionParser.read_specifier, VersionParser._read_single_specifier"]}
{"id": "C14", "title": "Printing then parsing a specifier keeps its meaning", "statement": "For each specifier produced by the parser, parsing its printed form gives an equal specifier.", "quantifier": "all specifiers produced by the parser", "why_tests_cant": "infinite set", "anchors": ["pkm/src/pkm/api/versions/version_specifiers.py: __str__ (all classes)", "pkm/src/pkm/api/versions/version_parser.py: parse_specifier"]}
{"id": "C15", "title": "A resolution is a real solution", "statement": "If dependency resolution returns an assignment then it selects exactly one version per selected package, contains the root, every selected version is one the repository listed, and every dependency of every selected package is satisfied by the selected version of that dependency.", "quantifier": "all package indexes and dependency graphs", "why_tests_cant": "quantifies over all (unbounded) dependency graphs", "anchors": ["pkm/src/pkm/resolution/pubgrub.py: Solver.solve, Solver._propagate, Solver._make_next_decision, PartialSolution"]}
{"id": "C16", "title": "Resolver version windows partition the available versions", "statement": "The windows the resolver assigns to the available versions of a package cover every version number and each available version falls in its own window only.", "quantifier": "all descending version lists", "why_tests_cant": "all lists", "anchors": ["pkm/src/pkm/resolution/pubgrub.py: Solver.package_versions, _PackageVersion.effective_version"]}
{"id": "C17", "title": "Backtracking restores an earlier search state", "statement": "After backtracking to a level, the partial solution is exactly the one obtained by replaying the assignments made at or below that level: no assignment above the level survives and none below is lost.", "quantifier": "all assignment histories and target levels", "why_tests_cant": "all histories", "anchors": ["pkm/src/pkm/resolution/pubgrub.py: PartialSolution.backtrack, PartialSolution.assign, PartialSolution.make_assignment"]}
{"id": "C18", "title": "'No solution' is only reported when there is none", "statement": "If resolution fails with an unsatisfiable error then no assignment of versions satisfies the root requirements; every derived incompatibility is a logical consequence of the dependency facts.", "quantifier": "all package indexes", "why_tests_cant": "completeness quantifies over all assignments", "anchors": ["pkm/src/pkm/resolution/pubgrub.py: Solver._resolve_conflict, Incompatibility.prior_cause"]}
{"id": "C19", "title": "Updating the lock for one environment leaves other environments alone", "statement": "After the lock is updated from an environment, the entries of every other environment are exactly as before, the entries of this environment are exactly its installed packages, and updating twice is the same as once.", "quantifier": "all lock contents, environments and installed sets", "why_tests_cant": "all histories of lock updates", "anchors": ["pkm/src/pkm/resolution/packages_lock.py: PackagesLock.update_lock, PackagesLock.env_specific_locks"]}
{"id": "C20", "title": "Unlocking removes exactly the named packages", "statement": "Unlocking a set of names removes every lock entry of these packages (in every environment) and nothing else.", "quantifier": "all locks and name sets", "why_tests_cant": "all lock contents", "anchors": ["pkm/src/pkm/resolution/packages_lock.py: PackagesLock.unlock_packages"]}
{"id": "C21", "title": "Lock preference only reorders candidates", "statement": "The lock-prioritising repository returns the same candidates as the underlying one, locked versions first and otherwise in the same order.", "quantifier": "all candidate lists and locks", "why_tests_cant": "all lists", "anchors": ["pkm/src/pkm/resolution/packages_lock.py: PackagesLock.sort_packages_by_lock_preference, LockPrioritizingRepository"]}
{"id": "C22", "title": "A failed installation step leaves the file system as it was", "statement": "If a copy transaction fails at any point, after rollback every path has exactly the content and existence it had when the transaction started.", "quantifier": "all initial file systems, all operation sequences, all failure points", "why_tests_cant": "all crash points times all histories", "anchors": ["pkm/src/pkm/utils/files.py: CopyTransaction.copy, copy_tree, rm, mkdir, touch, _rollback, __exit__"]}
{"id": "C23", "title": "A committed copy transaction reports exactly the files it created", "statement": "After a successful transaction the list of copied files contains exactly the files written by it, each holding the source content, and files not mentioned are untouched.", "quantifier": "all operation sequences", "why_tests_cant": "all sequences", "anchors": ["pkm/src/pkm/utils/files.py: CopyTransaction.copied_files, copy, copy_tree"]}
{"id": "C24", "title": "Relative path computation reaches its destination", "statement": "path_to(a, b) terminates for all paths and resolving the returned path from a leads to b.", "quantifier": "all pairs of absolute paths", "why_tests_cant": "all paths", "anchors": ["pkm/src/pkm/utils/files.py: path_to"]}
{"id": "C25", "title": "Containment check is component-wise", "statement": "is_relative_to(p, q) holds exactly when q's components are a prefix of p's components.", "quantifier": "all pairs of paths", "why_tests_cant": "all pairs", "anchors": ["pkm/src/pkm/utils/files.py: is_relative_to"]}
{"id": "C26", "title": "At most one download of a resource is in flight, and nobody waits forever", "statement": "Under every interleaving of concurrent requests for a url, at most one request performs the download at a time, and every request returns or raises once the performing one finishes.", "quantifier": "all schedules of any number of callers", "why_tests_cant": "all interleavings", "anchors": ["pkm/src/pkm/utils/http/http_client.py: HttpClient.fetch_resource, HttpClient._request"]}
{"id": "C27", "title": "Cache directives are honoured on every request", "statement": "A request that asks for an update (or for no caching) contacts the server even if the same url was requested before in this process.", "quantifier": "all histories of requests", "why_tests_cant": "depends on the history of earlier requests", "anchors": ["pkm/src/pkm/utils/http/http_client.py: HttpClient.fetch_resource", "pkm/src/pkm/utils/http/cache_directive.py: CacheDirective"]}
{"id": "C28", "title": "Redirects and retries are bounded, credentials stay home", "statement": "One logical request performs a bounded number of connections, and authorization headers are never sent to a different host than the one the caller addressed.", "quantifier": "all server behaviours", "why_tests_cant": "server is adversarial: all response sequences", "anchors": ["pkm/src/pkm/utils/http/http_client.py: HttpClient._request"]}
{"id": "C29", "title": "The connection pool never over-fills or hands out one connection twice", "statement": "The pool caches at most its configured number of connections, a connection is handed to at most one user at a time, and after close no connection is cached.", "quantifier": "all sequences of take/return/close", "why_tests_cant": "all histories", "anchors": ["pkm/src/pkm/utils/http/http_client.py: _ConnectionPool, _Connections"]}
{"id": "C30", "title": "A promise is settled at most once and its listeners run exactly once", "statement": "A promise changes state at most once; every listener registered before or after settling is called exactly once with the final state; await returns the settled value.", "quantifier": "all interleavings of complete/fail/cancel/listen", "why_tests_cant": "all schedules", "anchors": ["pkm/src/pkm/utils/promises.py: _SimplePromise, Deferred, Promise.when_completed"]}
{"id": "C31", "title": "Awaiting many promises", "statement": "await_all returns only when all promises are settled; await_all_or_cancel cancels the remaining ones once one fails and reports the failure.", "quantifier": "all sets of promises and settle orders", "why_tests_cant": "all orders", "anchors": ["pkm/src/pkm/utils/promises.py: await_all_promises, await_all_promises_or_cancel"]}
{"id": "C32", "title": "The installation plan is the exact difference", "statement": "Applying the planned operations to the installed set yields exactly the resolved set (plus untouched unrelated packages), nothing already right is reinstalled, and nothing still required is removed.", "quantifier": "all installed sets and resolutions", "why_tests_cant": "all pairs of sets", "anchors": ["pkm/src/pkm/api/packages/package_installation.py: InstallationPlan.compute_operations_for_target"]}
{"id": "C33", "title": "Uninstall removes exactly what nobody needs any more", "statement": "Uninstalling names removes a package exactly when it is not reachable through dependencies from a remaining user requested package; requested ones that are still needed stay but lose their requested mark.", "quantifier": "all dependency graphs, including cyclic ones", "why_tests_cant": "all graphs", "anchors": ["pkm/src/pkm/api/packages/package_installation.py: PackageInstallationTarget.uninstall", "pkm/src/pkm/api/packages/site_packages.py: SitePackages.find_orphan_packages"]}
{"id": "C34", "title": "Removing a package only deletes its own files", "statement": "Removing an installed package deletes exactly its recorded files inside the installation target and the directories that became empty; every other file stays.", "quantifier": "all file systems and record lists", "why_tests_cant": "all record lists, including hostile ones", "anchors": ["pkm/src/pkm/api/packages/site_packages.py: InstalledPackage.uninstall", "pkm/src/pkm/api/distributions/distinfo.py: DistInfo.installed_files"]}
{"id": "C35", "title": "Package names compare as PyPI compares them", "statement": "Two names that differ only in case and in runs of '-', '_' and '.' denote the same package; normalisation is idempotent.", "quantifier": "all names", "why_tests_cant": "all strings", "anchors": ["pkm/src/pkm/api/packages/package.py: PackageDescriptor.normalize_name, package_name_key"]}
{"id": "C36", "title": "The best artifact is chosen", "statement": "For an environment, the chosen artifact is compatible, no other compatible wheel scores higher, and a source artifact is chosen only when no wheel is compatible.", "quantifier": "all artifact lists and scores", "why_tests_cant": "all lists", "anchors": ["pkm/src/pkm/api/packages/standard_package.py: AbstractPackage.best_artifact_for"]}
{"id": "C37", "title": "Installing a wheel verifies its record", "statement": "A wheel any of whose recorded files has a wrong hash is rejected and leaves the target unchanged; an accepted wheel's installed record lists every installed file with the hash of its installed content.", "quantifier": "all wheels", "why_tests_cant": "all wheels incl. tampered ones", "anchors": ["pkm/src/pkm/api/distributions/wheel_distribution.py: _verify_records, WheelDistribution.install_to", "pkm/src/pkm/api/distributions/distinfo.py: RecordsFileConfiguration.sign_files"]}
{"id": "C38", "title": "TOML write/read round trip", "statement": "Any string, key or nested table written by the TOML writer is read back identically by the TOML reader.", "quantifier": "all strings and tables", "why_tests_cant": "all strings", "anchors": ["pkm/src/pkm/config/toml.py: _Writer, _TomlParser, dumps, loads"]}
{"id": "C39", "title": "Dotted config keys read what was written", "statement": "In a configuration, reading a key path after writing it returns the written value and leaves all other paths unchanged; popping removes exactly that path.", "quantifier": "all nested configurations and key paths", "why_tests_cant": "all trees", "anchors": ["pkm/src/pkm/config/configclass.py: _pop_key, _shove_key"]}
{"id": "C40", "title": "Hashes of unordered data do not depend on order", "statement": "Hashing a set or mapping gives the same value for every iteration order, and hashing a sequence depends only on its elements in order.", "quantifier": "all permutations", "why_tests_cant": "all permutations of all collections", "anchors": ["pkm/src/pkm/utils/hashes.py: HashBuilder"]}
{"id": "C41", "title": "Collection helpers keep every element", "statement": "groupby, partition, distinct, argmax, first/last and default lookups return each input element exactly where their documentation says: grouping loses and invents nothing, keeps the order in a group; partition splits; distinct keeps first occurrences; defaults are returned instead of errors.", "quantifier": "all sequences", "why_tests_cant": "all sequences", "anchors": ["pkm/src/pkm/utils/iterators.py: groupby, partition, distinct, single_or", "pkm/src/pkm/utils/sequences.py: get_or_default, argmax, pop_or_none, index_of_or_none", "pkm/src/pkm/utils/strings.py"]}
{"id": "C42", "title": "Environment markers follow boolean precedence", "statement": "A marker expression evaluates as and-before-or with parentheses, for every environment, and printing then parsing keeps its value.", "quantifier": "all marker expressions and environments", "why_tests_cant": "all expressions", "anchors": ["pkm/src/pkm/api/dependencies/env_markers.py"]}
{"id": "C43", "title": "Dependencies round-trip through their text form", "statement": "Printing a dependency and parsing it back gives an equivalent dependency (name, extras, version specifier, marker).", "quantifier": "all dependencies", "why_tests_cant": "all dependencies", "anchors": ["pkm/src/pkm/api/dependencies/dependency.py: Dependency.parse, Dependency.__str__"]}
{"id": "C44", "title": "Repositories are searched in order and bindings are obeyed", "statement": "For a plain dependency the first repository in configuration order with a match answers; a bound package is only ever taken from its bound repository; bind-only repositories are never used for unbound packages; an unmatched url dependency yields an empty result.", "quantifier": "all configurations, bindings and dependencies", "why_tests_cant": "all configurations", "anchors": ["pkm/src/pkm/api/repositories/repository_loader.py: _CompositeRepository._do_match, RepositoryLoader.load"]}
{"id": "C45", "title": "Pre-releases are only offered when asked for or unavoidable", "statement": "match returns pre-releases only if the specifier mentions one or every candidate is a pre-release; otherwise exactly the non pre-releases, in order.", "quantifier": "all candidate lists and specifiers", "why_tests_cant": "all lists", "anchors": ["pkm/src/pkm/api/repositories/repository.py: AbstractRepository._filter_prereleases, match"]}
{"id": "C46", "title": "Repository inheritance visits each context once, nearest first", "statement": "The lookup chain of a context terminates, contains each configuration at most once, starts with the context itself, and contains exactly the contexts reachable by inheritance.", "quantifier": "all parent graphs, including cyclic", "why_tests_cant": "all graphs", "anchors": ["pkm/src/pkm/api/repositories/repository_management.py: RepositoryManagement.package_lookup_chain"]}
{"id": "C47", "title": "Two differently named repositories stay distinct", "statement": "Each configured repository is available under its own configured name, so binding a package to it by name works.", "quantifier": "all configurations", "why_tests_cant": "depends on the history of earlier loads (cache)", "anchors": ["pkm/src/pkm/api/repositories/repository_loader.py: RepositoryLoader.build, RepositoryLoader.load"]}
{"id": "C48", "title": "Changing bindings and repositories touches nothing else", "statement": "Registering, clearing bindings, adding and removing a repository change exactly the named entries of the configuration; a removed repository has no remaining binding.", "quantifier": "all configurations and operation sequences", "why_tests_cant": "all histories", "anchors": ["pkm/src/pkm/api/repositories/repository_management.py: register_bindings, add_repository, remove_repository"]}
{"id": "C49", "title": "Activation is undone on exit", "statement": "Leaving an environment or zoo activation restores PATH and VIRTUAL_ENV to exactly their values (or absence) before, also when the body fails and when activations nest.", "quantifier": "all initial environments, all bodies, all nestings", "why_tests_cant": "all initial values incl. empty string", "anchors": ["pkm/src/pkm/api/environments/environment.py: Environment.activate", "pkm/src/pkm/api/environments/environments_zoo.py: EnvironmentsZoo.activate"]}
{"id": "C50", "title": "Compatibility scores respect the tag rules", "statement": "A tag set is compatible exactly when one of its expanded tags is, its score is the best of them, an incompatible interpreter/abi/platform is never accepted.", "quantifier": "all tag strings and interpreters", "why_tests_cant": "all tags", "anchors": ["pkm/src/pkm/api/environments/environment_introspection.py: EnvironmentIntrospection.compatibility_score, _compatibility_tag_scorer"]}
{"id": "C51", "title": "Build cycles, and only cycles, are rejected", "statement": "Building a package fails with a cycle error exactly when the chain of packages currently being built already contains it.", "quantifier": "all build requirement graphs", "why_tests_cant": "all graphs and build orders", "anchors": ["pkm/src/pkm/build/external_builders.py: build_wheel", "pkm/src/pkm/utils/dicts.py: put_if_absent"]}
{"id": "C52", "title": "The source build cache returns what was built from the same source", "statement": "A cached artifact is returned only for the same package, version, environment markers and archive content; a crash at any point never leaves a state from which a wrong artifact is returned.", "quantifier": "all request histories and crash points", "why_tests_cant": "crash points", "anchors": ["pkm/src/pkm/build/source_build_cache.py: SourceBuildCache._get_or_build"]}
{"id": "C53", "title": "Shared packages are collected exactly when unused", "statement": "Cleaning the shared store removes exactly the shared artifacts no environment references, and empty parent directories; everything referenced stays.", "quantifier": "all stores and environment sets", "why_tests_cant": "all stores", "anchors": ["pkm/src/pkm/repositories/shared_pacakges_repo.py: SharedPackagesRepository.remove_unused_packages"]}
{"id": "C54", "title": "The process pool is bounded and finishes or cancels tasks correctly", "statement": "At most max_workers workers exist, each submitted task is executed at most once and its promise settled exactly once; a task cancelled before it starts is never executed.", "quantifier": "all schedules", "why_tests_cant": "all interleavings of submit/cancel/worker exit", "anchors": ["pkm/src/pkm/utils/multiproc/__init__.py: ProcessPoolExecutor, _TaskResult, _WorkerHandler"]}
{"id": "C55", "title": "Cached properties are computed once", "statement": "However many threads read a cached property concurrently, its computation runs at most once between invalidations and all readers see the same value.", "quantifier": "all schedules", "why_tests_cant": "all interleavings", "anchors": ["pkm/src/pkm/utils/properties.py: cached_property, clear_cached_properties"]}
{"id": "C56", "title": "Url text form round-trips", "statement": "Parsing a url and printing it gives back the same url.", "quantifier": "all urls", "why_tests_cant": "all strings", "anchors": ["pkm/src/pkm/utils/http/http_client.py: Url.parse, Url.__str__"]}
{"id": "C57", "title": "Multipart uploads are well-formed", "statement": "The streamed body of a multipart form equals the concatenation prescribed by RFC 7578 (each part delimited by the boundary and the body closed by the final delimiter) whatever the chunking of reads.", "quantifier": "all field lists and read sizes", "why_tests_cant": "all read schedules", "anchors": ["pkm/src/pkm/utils/http/mfd_payload.py: MultipartFormDataPayload"]}
{"id": "C58", "title": "Command line arguments are assigned as declared", "statement": "Parsing a command line assigns every argument to a declared option or positional, rejects unknown or missing ones, and never assigns one argument twice or drops one silently.", "quantifier": "all command definitions and argument vectors", "why_tests_cant": "all argument vectors", "anchors": ["pkm-cli/src/pkm_cli/api/dynamic_cli/command_parser.py: DynamicCommandLine, CommandAST, ArgumentsBuffer"]}
{"id": "C59", "title": "Template rendering never overwrites without permission", "statement": "Without the overwrite flag, executing a template either fails before changing any file of the target or only adds files.", "quantifier": "all targets and templates", "why_tests_cant": "all file systems", "anchors": ["pkm-cli/src/pkm_cli/api/templates/template_runner.py: Template.execute, Template._render"]}
{"id": "C60", "title": "Link files round-trip", "statement": "Saving a path link file and loading it returns the same imports and links.", "quantifier": "all imports and paths", "why_tests_cant": "all strings", "anchors": ["pkm/src/pkm/api/distributions/pth_link.py: PthLink.save, PthLink.load"]}
{"id": "C61", "title": "Resolution fails only for reasons of the problem", "statement": "On a solvable problem whose versions have usable metadata, resolution does not fail with an internal error (failed assertion, index error).", "quantifier": "all package indexes", "why_tests_cant": "all dependency graphs", "anchors": ["pkm/src/pkm/resolution/pubgrub.py: Solver._resolve_conflict, Solver._make_next_decision, PartialSolution.satisfier"]}
{"id": "C62", "title": "Repositories return only packages that fit the request", "statement": "Every package a repository returns for a dependency without a url satisfies the version specifier of that dependency, when the repositories it is made of do so.", "quantifier": "all repositories and dependencies", "why_tests_cant": "all combinations of repositories", "anchors": ["pkm/src/pkm/api/repositories/repository_loader.py: _CompositeRepository._do_match", "pkm/src/pkm/api/repositories/repository_management.py: ProjectsRepository._do_match"]}
{"id": "C63", "title": "Shared artifacts are reused", "statement": "Installing a package version whose artifact is already in the shared store of the zoo links that artifact instead of installing it again.", "quantifier": "all stores and packages", "why_tests_cant": "all contents of the store", "anchors": ["pkm/src/pkm/repositories/shared_pacakges_repo.py: _SharedPackage._shared_artifact_for, _SharedPackage.install_to"]}
{"id": "C64", "title": "Saving an unchanged configuration keeps it", "statement": "Loading a configuration file and saving the resulting object without changing it preserves every setting of the file.", "quantifier": "all configuration classes and files", "why_tests_cant": "all nested tables", "anchors": ["pkm/src/pkm/config/configclass.py: ConfigCodec.parse, ConfigCodec.unparse", "pkm/src/pkm/api/projects/pyproject_configuration.py: PyProjectConfiguration, ContactInfo.__post_init__"]}
{"id": "C65", "title": "Optional dependencies apply only with their extra", "statement": "A dependency listed in an optional group applies exactly when the extra of that group is requested and its own marker holds.", "quantifier": "all projects, groups and environments", "why_tests_cant": "all markers and sets of extras", "anchors": ["pkm/src/pkm/api/projects/pyproject_configuration.py: ProjectConfig.all_dependencies"]}
{"id": "C66", "title": "Cleaning the build directory keeps the wanted versions", "statement": "Cleaning the build directory removes all artifacts except the ones of the versions to keep, and touches nothing else.", "quantifier": "all file systems and versions", "why_tests_cant": "all contents of the directory", "anchors": ["pkm/src/pkm/api/projects/project.py: ProjectDirectories.clean_dist"]}
{"id": "C67", "title": "Attaching an environment destroys nothing", "statement": "Opening the environment attached to a project deletes no file that is not part of an environment.", "quantifier": "all configurations and file systems", "why_tests_cant": "all contents of the configured path", "anchors": ["pkm/src/pkm/api/projects/project.py: Project.attached_environment"]}
{"id": "C68", "title": "Entry points reach the installation", "statement": "Every entry point declared by a project is written to its distribution and read back with the same group, name and reference.", "quantifier": "all projects and references", "why_tests_cant": "all strings", "anchors": ["pkm/src/pkm/utils/entrypoints.py: ObjectReference.parse, ObjectReference.__str__", "pkm/src/pkm/api/projects/pyproject_configuration.py: ProjectConfig.entry_points", "pkm/src/pkm/api/distributions/distinfo.py: EntrypointsConfiguration.entrypoints"]}
{"id": "C69", "title": "Building a group builds its projects", "statement": "Building a project group builds each project listed by it or by a group below it exactly once, reports listed directories that are no project, and the root of a group is its topmost parent.", "quantifier": "all trees of groups", "why_tests_cant": "all nestings of groups", "anchors": ["pkm/src/pkm/api/projects/project_group.py: ProjectGroup.children, ProjectGroup.build_all, ProjectGroup.root, ProjectGroup._find_group"]}
{"id": "C70", "title": "Adding to and removing from a group are inverse", "statement": "Removing a project from a group removes exactly the entries for its path, so that removing an added project restores the list.", "quantifier": "all lists and paths", "why_tests_cant": "all spellings of paths", "anchors": ["pkm/src/pkm/api/projects/project_group.py: ProjectGroup.add, ProjectGroup.remove"]}
{"id": "C71", "title": "Reading TOML comes to an end", "statement": "Reading any text as TOML either returns the data or raises an error.", "quantifier": "all texts", "why_tests_cant": "all texts", "anchors": ["pkm/src/pkm/config/toml.py: _TomlParser.read_non_data, _TomlParser.read, _TomlParser.read_key, _TomlParser.read_inline_value", "pkm/src/pkm/utils/parsers.py: SimpleParser.until_match"]}
{"id": "C72", "title": "Reading TOML runs no code", "statement": "Reading a TOML file evaluates nothing but string and number literals of the file.", "quantifier": "all texts", "why_tests_cant": "all texts", "anchors": ["pkm/src/pkm/config/toml.py: _TomlParser.read_basic_str, _TomlParser.read_number_or_date"]}
{"id": "C73", "title": "Closing a process pool ends its work", "statement": "Closing a process pool returns once the tasks that were running are done, and afterwards no worker process is started and no task is left in the queue.", "quantifier": "all schedules of submitters, workers and the closing thread", "why_tests_cant": "the hang and the endless restarting need a task that is still running while another thread closes the pool", "anchors": ["pkm/src/pkm/utils/multiproc/__init__.py: ProcessPoolExecutor.close, _WorkerHandler.join, _handle_work"]}
{"id": "C74", "title": "Executing a template renders exactly its entries", "statement": "Executing a template puts into the target every file and directory of the template, except the template's own control files (render.py, .templateignore, __pycache__), the ignored ones and those whose rendered name is empty, under its rendered name and with its rendered text, and nothing else.", "quantifier": "for all templates (trees), renderings of names and texts, ignore lists and target directories", "why_tests_cant": "The outcome depends on the order of directory entries, on nested trees and on markers inside directories; tests use one or two fixed templates.", "anchors": ["pkm-cli/src/pkm_cli/api/templates/template_runner.py:97-161"]}
{"id": "C75", "title": "The order of versions is irreflexive and transitive", "statement": "No version is below itself; if one version is below a second and that below a third, the first is below the third; two standard versions of which neither is below the other are equal, or agree in everything public and have local labels that differ only in spelling (equal numbers written differently, an empty label).", "quantifier": "all versions and triples of versions", "why_tests_cant": "transitivity is about all triples of versions", "anchors": ["pkm/src/pkm/api/versions/version.py: _less, Version.__lt__, StandardVersion.__eq__, StandardVersion.normalized, UrlVersion.__eq__"]}
{"id": "C76", "title": "Equality of versions means equal parts", "statement": "Equality of versions is reflexive, symmetric and transitive, and two standard versions are equal exactly if their epochs (a missing one is 0), their releases up to trailing zeros, their pre-, post- and dev-releases and their local labels are equal.", "quantifier": "all versions", "why_tests_cant": "all pairs and triples of versions", "anchors": ["pkm/src/pkm/api/versions/version.py: StandardVersion.equals_to, StandardVersion.__hash__, StandardVersion.standartize, UrlVersion.__eq__"]}
{"id": "C77", "title": "Every text is read as a version", "statement": "Reading any text as a version gives a version and never fails.", "quantifier": "all texts", "why_tests_cant": "all texts", "anchors": ["pkm/src/pkm/api/versions/version_parser.py: parse_version, VersionParser.read_version"]}
{"id": "C78", "title": "Different releases are ordered as PEP 440 orders them", "statement": "If two versions differ in the epoch or in a number of the release, their order is that of PEP 440, whatever the other parts are.", "quantifier": "all pairs of versions", "why_tests_cant": "all pairs of versions", "anchors": ["pkm/src/pkm/api/versions/version.py: _less"]}
{"id": "C79", "title": "A printed url is read back", "statement": "Printing a url whose parts can stand in a url and reading the text gives the same url.", "quantifier": "all urls", "why_tests_cant": "all strings as parts", "anchors": ["pkm/src/pkm/utils/http/http_client.py: Url.parse, Url.__str__"]}
{"id": "C80", "title": "One download at a time", "statement": "However many callers fetch a resource at the same time, and whichever of them are aborted, at most one of them is contacting the server at any time.", "quantifier": "all numbers of callers and schedules", "why_tests_cant": "all interleavings", "anchors": ["pkm/src/pkm/utils/http/http_client.py: HttpClient.fetch_resource, HttpClient._request"]}
{"id": "C81", "title": "Every request ends", "statement": "A request makes at most (1 + number of redirects) times the number of tries contacts, and ends after them, whatever the server answers.", "quantifier": "all servers and limits", "why_tests_cant": "all behaviours of servers", "anchors": ["pkm/src/pkm/utils/http/http_client.py: HttpClient._request"]}
{"id": "C82", "title": "The connection pool keeps its limit", "statement": "At no time the pool keeps more idle connections than its limit, and a closed pool keeps none.", "quantifier": "all sequences of operations", "why_tests_cant": "all histories", "anchors": ["pkm/src/pkm/utils/http/http_client.py: _ConnectionPool, _Connections"]}
{"id": "C83", "title": "Settled promises are final and callbacks run once", "statement": "A settled promise never changes and settling it again raises; every callback runs at most once and sees the settled state; when all threads are through, the callbacks of settled promises have run exactly once, their promises hold what they returned or raised, and the others have not run; a promise holds only a value some thread has given it.", "quantifier": "all programs of any number of threads and all schedules", "why_tests_cant": "all interleavings of threads", "anchors": ["pkm/src/pkm/utils/promises.py: _SimplePromise, Deferred, Promise.when_completed"]}
{"id": "C84", "title": "Awaiting all promises waits for all", "statement": "await_all returns only when all promises are settled, and without ignore_error only when none failed; otherwise it raises the error of the first failing one after waiting for those before it; await_all_or_cancel that returns has asked nothing to cancel.", "quantifier": "all lists of promises", "why_tests_cant": "all timings and failures", "anchors": ["pkm/src/pkm/utils/promises.py: await_all_promises, await_all_promises_or_cancel"]}
{"id": "C85", "title": "The installation plan reaches the resolution", "statement": "Executing the operations of the plan in any order leaves exactly the resolved packages in the resolved versions, touches no package that is right already, has a reason for every operation, and records the requests.", "quantifier": "all environments, resolutions and orders of execution", "why_tests_cant": "all combinations and orders", "anchors": ["pkm/src/pkm/api/packages/package_installation.py: InstallationPlan.compute_operations_for_target"]}
{"id": "C86", "title": "Removing an installation removes its files and empty directories", "statement": "Removing an installed distribution comes to an end unless a record names a directory; afterwards all its recorded files and its dist-info are gone, each directory that is gone belonged to it and is empty (or is its dist-info or a __pycache__), and no directory of the site that was not empty before is left empty.", "quantifier": "all file systems and records, all orders in which directories are visited", "why_tests_cant": "all contents of the site", "anchors": ["pkm/src/pkm/api/packages/site_packages.py: InstalledPackage.uninstall", "pkm/src/pkm/api/distributions/distinfo.py: DistInfo.installed_files"]}
{"id": "C87", "title": "Normalised names are stable", "statement": "Normalising a normalised name changes nothing, the same for the keys of names, and two valid names with the same key are the same name for PyPI.", "quantifier": "all names", "why_tests_cant": "all texts", "anchors": ["pkm/src/pkm/api/packages/package.py: PackageDescriptor.normalize_name, package_name_key"]}
{"id": "C88", "title": "Accepted tags are compatible", "statement": "A tag with a compatibility score has a compatible single tag, its score is the best of the scores of its single tags, and on a machine whose interpreter tag is in lower case every compatible single tag has a score.", "quantifier": "all interpreters and tags", "why_tests_cant": "all combinations of interpreters, abis and platforms", "anchors": ["pkm/src/pkm/api/environments/environment_introspection.py: EnvironmentIntrospection.compatibility_score, _compatibility_tag_scorer"]}
{"id": "C89", "title": "Repositories answer in their order", "statement": "A composite repository answers a request for an unbound package with the answer of the first searched repository that has one; the repository a package is bound to answers for it, an unknown one is an error; a composite repository obeys the same rules as its parts.", "quantifier": "all lists of repositories, bindings and requests", "why_tests_cant": "all combinations, nested", "anchors": ["pkm/src/pkm/api/repositories/repository_loader.py: _CompositeRepository._do_match, RepositoryLoader.load"]}
{"id": "C90", "title": "Repository contexts are walked to an end", "statement": "Walking from a context through the contexts it inherits from comes to an end, for every finite set of contexts, also with cycles.", "quantifier": "all finite graphs of contexts", "why_tests_cant": "all graphs", "anchors": ["pkm/src/pkm/api/repositories/repository_management.py: RepositoryManagement.package_lookup_chain"]}
{"id": "C91", "title": "A change of the repository configuration does exactly that", "statement": "Every operation on repositories and bindings leaves each binding and each repository as the operation says, leaves all others as they were, and writes the same to the file; a removed repository has no bindings left.", "quantifier": "all operations and configurations", "why_tests_cant": "all configurations", "anchors": ["pkm/src/pkm/api/repositories/repository_management.py: register_bindings, add_repository, remove_repository"]}
{"id": "C92", "title": "Source builds end, and no cycle is built", "statement": "Over any finite set of packages closed under build requirements a build ends with the wheel or the report of a cycle, whatever is in the cache, and a package that needs a package that needs itself is never built.", "quantifier": "all graphs of build requirements and caches", "why_tests_cant": "all graphs", "anchors": ["pkm/src/pkm/build/external_builders.py: build_wheel", "pkm/src/pkm/utils/dicts.py: put_if_absent"]}
{"id": "C93", "title": "A finished build is served from the cache", "statement": "A request for which the builder gave what was asked for (with a wheel file name ending in .whl) is answered from the cache the next time without a build; every answer comes from a build for the same directory names, the same markers and the same archive digest, and it is a part of what that build gave.", "quantifier": "all histories of requests, cut off anywhere", "why_tests_cant": "all histories and crashes", "anchors": ["pkm/src/pkm/build/source_build_cache.py: SourceBuildCache._get_or_build"]}
{"id": "C94", "title": "Markers are read or refused, and print as they were read", "statement": "Reading a text as a marker ends, with a marker, a ValueError or a TypeError; reading the printed text of a marker that was read gives the same marker.", "quantifier": "all texts", "why_tests_cant": "all texts", "anchors": ["pkm/src/pkm/api/dependencies/env_markers.py"]}
{"id": "C95", "title": "Marker comparisons mean what they say", "statement": "A marker that compares the extra with a name holds exactly if that extra is requested; one that compares an environment version with a version clause holds exactly if the clause allows that version; one that compares a marker with a word holds exactly if they are equal (or not).", "quantifier": "all environments, extras, versions and words", "why_tests_cant": "all versions and texts", "anchors": ["pkm/src/pkm/api/dependencies/env_markers.py"]}
{"id": "C96", "title": "Cleaning the shared store removes exactly the unreferenced artifacts", "statement": "Every artifact that a package of an environment refers to stays as it is, every other one goes with all that is in it, nothing outside the store is touched, and nothing is added or changed.", "quantifier": "all stores and environments in which no package is installed twice", "why_tests_cant": "all contents of file systems", "anchors": ["pkm/src/pkm/repositories/shared_pacakges_repo.py: SharedPackagesRepository.remove_unused_packages"]}
{"id": "C97", "title": "Dotted keys change exactly their path", "statement": "Writing a dotted key fails only when a value in its way is no table; then the value is there and no path beside it changes. Popping fails in the same case only; it returns what was there, and that is gone, no path beside it changes and the tables above stay.", "quantifier": "all nested tables and keys", "why_tests_cant": "all nestings", "anchors": ["pkm/src/pkm/config/configclass.py: _pop_key, _shove_key"]}
{"id": "C98", "title": "The projects below a group", "statement": "The projects that are built for a group are the ones that it or a group below it lists; the walk ends when no group is below itself; the group of a project is the nearest directory above whose group file lists it.", "quantifier": "all trees of groups", "why_tests_cant": "all nestings", "anchors": ["pkm/src/pkm/api/projects/project_group.py: ProjectGroup.children, ProjectGroup.build_all, ProjectGroup.root, ProjectGroup._find_group"]}
{"id": "C99", "title": "An existing environment is attached as it is", "statement": "If the attached path of a project is a virtual environment, opening it changes no file and gives that path.", "quantifier": "all configurations and file systems", "why_tests_cant": "all file systems", "anchors": ["pkm/src/pkm/api/projects/project.py: Project.attached_environment"]}
{"id": "C100", "title": "Collection helpers", "statement": "Grouping keeps every element under its key once and in order, distinct keeps the first of each key, partitioning, argmax, index_of, pop, single, removing a prefix, remove by value and get-or-put do what their names say.", "quantifier": "all lists and keys", "why_tests_cant": "all lists", "anchors": ["pkm/src/pkm/utils/iterators.py: groupby, partition, distinct, single_or", "pkm/src/pkm/utils/sequences.py: get_or_default, argmax, pop_or_none, index_of_or_none", "pkm/src/pkm/utils/strings.py"]}
{"id": "C101", "title": "An understood command has exactly its declared arguments", "statement": "The command at a path is the last one defined for it, and each command of an understood command line has a value for every argument it declares (and the help flag) and for nothing else.", "quantifier": "all definitions and command lines", "why_tests_cant": "all argument vectors", "anchors": ["pkm-cli/src/pkm_cli/api/dynamic_cli/command_parser.py: DynamicCommandLine, CommandAST, ArgumentsBuffer"]}
{"id": "C102", "title": "Locked versions come first", "statement": "With a lock made by any updates, the packages a repository returns are the same in the same order, except that the locked ones come first.", "quantifier": "all histories of the lock, environments and package lists", "why_tests_cant": "all histories", "anchors": ["pkm/src/pkm/resolution/packages_lock.py: PackagesLock.sort_packages_by_lock_preference, LockPrioritizingRepository"]}
{"id": "C103", "title": "Relative paths lead to their destination", "statement": "Walking the computed path from the source reaches the destination, and the path first only goes up, then only down.", "quantifier": "all paths", "why_tests_cant": "all paths", "anchors": ["pkm/src/pkm/utils/files.py: path_to"]}
{"id": "C104", "title": "A wheel with unrecorded files is refused", "statement": "Installing a wheel that has a file which its record does not name, or has no record, fails.", "quantifier": "all wheels", "why_tests_cant": "all wheels", "anchors": ["pkm/src/pkm/api/distributions/wheel_distribution.py: _verify_records, WheelDistribution.install_to", "pkm/src/pkm/api/distributions/distinfo.py: RecordsFileConfiguration.sign_files"]}
{"id": "C105", "title": "A dependency that was read has a normalised name and plain extras", "statement": "The name of a dependency that was read is a normalised identifier and its extras, if any, are identifiers.", "quantifier": "all texts", "why_tests_cant": "all texts", "anchors": ["pkm/src/pkm/api/dependencies/dependency.py: Dependency.parse, Dependency.__str__"]}
{"id": "C106", "title": "The packages of a resolution work together", "statement": "When a resolution succeeds, the package asked for is in the answer, and for every package in the answer that is needed with some extras, everything it requires in the environment with these extras (after overrides) is in the answer too, in a version that the requirement allows; a package that is needed with extras is also needed without.", "quantifier": "all repositories, environments, requirements, extras and overrides", "why_tests_cant": "all sets of packages; tests use small made-up indexes", "anchors": ["pkm/src/pkm/resolution/dependency_resolver.py: resolve_dependencies, _PkmPackageInstallationProblem"]}
{"id": "C107", "title": "A resolution has one version of each package", "statement": "No two packages of a resolution have names that are spellings of the same name.", "quantifier": "all repositories and requirements", "why_tests_cant": "all spellings of names in all requirements", "anchors": ["pkm/src/pkm/resolution/dependency_resolver.py: _Pkg.of, resolve_dependencies"]}
{"id": "C108", "title": "Pre-releases that are asked for are found", "statement": "If a requirement names a pre-release (x>=2a1) and the repository has such a version, the resolver considers it, and no other pre-releases when there are final releases.", "quantifier": "all indexes and requirements", "why_tests_cant": "all mixes of final and pre-releases", "anchors": ["pkm/src/pkm/resolution/dependency_resolver.py: get_versions", "pkm/src/pkm/api/repositories/repository.py: AbstractRepository.match, Repository.list"]}
{"id": "C109", "title": "A package of a local repository is found under its name", "statement": "A project in a local repository is found for every requirement that spells its name, whatever the case of the letters.", "quantifier": "all project names", "why_tests_cant": "all names", "anchors": ["pkm/src/pkm/resolution/dependency_resolver.py: _Pkg.of", "pkm/src/pkm/repositories/file_system_repository.py"]}
{"id": "C110", "title": "A configuration is accepted only with its required settings", "statement": "Reading a configuration succeeds only if every required setting, also one with a dotted key, is present and not empty (None).", "quantifier": "all configuration classes and nested tables", "why_tests_cant": "all nestings and orders of fields", "anchors": ["pkm/src/pkm/config/configclass.py: ConfigCodec.parse, _pop_key"]}
{"id": "C111", "title": "Reading a configuration leaves the dictionary as it was", "statement": "Building an object from a dictionary (from_config) does not change the dictionary, so building it again gives an equal object.", "quantifier": "all configuration classes and nested tables", "why_tests_cant": "all dictionaries", "anchors": ["pkm/src/pkm/config/configclass.py: ConfigFile.from_config, ConfigCodec.parse, _pop_key"]}
{"id": "C112", "title": "An index offers the allowed versions, highest first", "statement": "The packages found in a PyPI index are exactly the versions that the requirement allows and that have a file that can be installed, each with all of these files, sorted with the highest version first.", "quantifier": "all answers of the index, all requirements", "why_tests_cant": "all sets of releases and files", "anchors": ["pkm/src/pkm/repositories/pypi_repository.py: PyPiRepository._do_match, _relevant_artifacts, _create_artifact_from_pypi_release", "pkm/src/pkm/api/repositories/repository.py: _sorted_by_version"]}
{"id": "C113", "title": "Every version of an index carries its metadata", "statement": "The metadata attached to a package found in the index is the metadata of that version.", "quantifier": "all answers of the index", "why_tests_cant": "all sets of releases", "anchors": ["pkm/src/pkm/repositories/pypi_repository.py: PyPiRepository._do_match", "pkm/src/pkm/api/packages/package_metadata.py: PackageMetadata.from_config"]}
{"id": "C114", "title": "One bad file does not hide a project", "statement": "A file whose python requirement cannot be read does not prevent other versions of the project from being found.", "quantifier": "all answers of the index", "why_tests_cant": "all sets of releases and all texts of requirements", "anchors": ["pkm/src/pkm/repositories/pypi_repository.py: PyPiRepository._do_match, _create_artifact_from_pypi_release"]}
{"id": "C115", "title": "Versions are read from file names", "statement": "The version that is read from the name of a wheel or source distribution in a simple index is the version in that name.", "quantifier": "all file names", "why_tests_cant": "all names and versions", "anchors": ["pkm/src/pkm/repositories/simple_repository.py: _extract_version"]}
{"id": "C116", "title": "Links of an index page are resolved", "statement": "The url of a file is the one that the link on the index page means according to RFC 3986.", "quantifier": "all pages and links", "why_tests_cant": "all links", "anchors": ["pkm/src/pkm/repositories/simple_repository.py: _HtmlArtifactsExtractor.handle_element"]}
{"id": "C117", "title": "Downloads have the published hash", "statement": "In every history of downloads, a file that is handed out has the hash that the index published for it.", "quantifier": "all sequences of downloads with the answers of the servers", "why_tests_cant": "all interleavings of urls, hash functions and cached results", "anchors": ["pkm/src/pkm/repositories/pypi_repository.py: PypiPackage._retrieve_artifact", "pkm/src/pkm/repositories/simple_repository.py: _SimplePackage._retrieve_artifact", "pkm/src/pkm/utils/http/http_client.py: FetchedResource.is_hash_valid"]}
{"id": "C118", "title": "A broken download can be repeated", "statement": "After a download that was rejected because of its hash, the next attempt can succeed.", "quantifier": "all sequences of downloads", "why_tests_cant": "all interleavings of broken and complete downloads", "anchors": ["pkm/src/pkm/repositories/pypi_repository.py: PypiPackage._retrieve_artifact", "pkm/src/pkm/utils/http/http_client.py: HttpClient.fetch_resource"]}
{"id": "C119", "title": "Downloads stay in the cache directory, apart from each other", "statement": "The file in which a download is kept is inside the directory of the cache, and different urls are kept in different files.", "quantifier": "all urls", "why_tests_cant": "all urls, including those of third parties", "anchors": ["pkm/src/pkm/utils/http/http_client.py: HttpClient._resource_files_of"]}
{"id": "C120", "title": "All files of a version are found together", "statement": "A package found in a simple index has all files of its version, and there is one package per version.", "quantifier": "all pages", "why_tests_cant": "all sets of files and spellings of versions", "anchors": ["pkm/src/pkm/repositories/simple_repository.py: SimpleRepository._do_match"]}
{"id": "C121", "title": "A RECORD is read as it was written", "statement": "Loading a RECORD file that was saved gives the saved records, whatever characters the file names contain.", "quantifier": "all lists of records", "why_tests_cant": "all file names, with commas, quotes and ends of lines", "anchors": ["pkm/src/pkm/config/configfiles.py: CSVConfigIO", "pkm/src/pkm/api/distributions/distinfo.py: RecordsFileConfiguration, _RecordHashsignatureCodec", "pkm/src/pkm/utils/hashes.py: HashSignature"]}
{"id": "C122", "title": "A RECORD of another tool can be saved again", "statement": "Saving a RECORD that was loaded keeps all of its lines, also the standard line for the RECORD itself without hash and length.", "quantifier": "all RECORD files", "why_tests_cant": "all combinations of present and missing columns", "anchors": ["pkm/src/pkm/config/configfiles.py: CSVConfigIO.write", "pkm/src/pkm/api/distributions/distinfo.py: RecordsFileConfiguration"]}
{"id": "C123", "title": "Every record names a file", "statement": "Each record that is loaded from a RECORD has the name of a file.", "quantifier": "all texts of RECORD files", "why_tests_cant": "all texts", "anchors": ["pkm/src/pkm/config/configfiles.py: CSVConfigIO.read", "pkm/src/pkm/api/distributions/distinfo.py: Record"]}
{"id": "C124", "title": "WHEEL and pyvenv.cfg are read as they were written", "statement": "Reading a file of key and value lines that was written gives the written values.", "quantifier": "all keys and values", "why_tests_cant": "all texts of values", "anchors": ["pkm/src/pkm/config/configfiles.py: WheelFileConfigIO", "pkm/src/pkm/api/distributions/distinfo.py: WheelFileConfiguration"]}
{"id": "C125", "title": "Created environments are isolated", "statement": "A created environment does not see the packages of the system, as its pyvenv.cfg says.", "quantifier": "all interpreters and versions", "why_tests_cant": "all homes and versions", "anchors": ["pkm/src/pkm/api/environments/environment_builder.py: EnvironmentBuilder.create, PyVEnvConfiguration", "pkm/src/pkm/config/configfiles.py: WheelFileConfigIO.write"]}
{"id": "C126", "title": "METADATA is read as it was written", "statement": "Reading a METADATA file that was written gives the written fields with their values.", "quantifier": "all metadata, all ways to break headers into lines", "why_tests_cant": "all fields and values", "anchors": ["pkm/src/pkm/api/packages/package_metadata.py: PackageMetadataIO.write, read"]}
{"id": "C127", "title": "The description of a package survives", "statement": "The description that is written to METADATA is there when METADATA is read.", "quantifier": "all metadata", "why_tests_cant": "all descriptions and other fields", "anchors": ["pkm/src/pkm/api/packages/package_metadata.py: PackageMetadataIO.write, read"]}
{"id": "C128", "title": "Values of several lines are kept or refused", "statement": "A value of several lines, such as the text of a license, is either written to METADATA or reported as an error.", "quantifier": "all fields and values", "why_tests_cant": "all values and positions", "anchors": ["pkm/src/pkm/api/packages/package_metadata.py: PackageMetadataIO.write"]}
{"id": "C129", "title": "Authors and maintainers are published", "statement": "The metadata of a project names its authors and its maintainers with their addresses.", "quantifier": "all lists of authors and maintainers", "why_tests_cant": "all combinations of names and addresses", "anchors": ["pkm/src/pkm/api/packages/package_metadata.py: PackageMetadata.from_project_config"]}
{"id": "C130", "title": "Uploads name their python version", "statement": "The python version that is sent with a wheel is the one in the name of the wheel.", "quantifier": "all file names", "why_tests_cant": "all names with and without build numbers", "anchors": ["pkm/src/pkm/repositories/pypi_repository.py: PyPiPublisher.publish"]}
{"id": "C131", "title": "Git packages come from the requested repository and branch", "statement": "In every history of requests, a git checkout that is handed out holds the files of the requested repository and branch.", "quantifier": "all sequences of requests, all repositories", "why_tests_cant": "all interleavings of repositories and branches", "anchors": ["pkm/src/pkm/repositories/git_repository.py: GitRepository._do_match, _Git.clone, _Git.update"]}
{"id": "C132", "title": "Branches are brought up to date", "statement": "Requesting a branch that was checked out before gives the present state of the branch.", "quantifier": "all repositories and file systems", "why_tests_cant": "all states of checkouts", "anchors": ["pkm/src/pkm/repositories/git_repository.py: _Git.update, _Git._is_detached"]}
{"id": "C133", "title": "A failed clone leaves nothing behind", "statement": "When git fails, no checkout is left behind and nothing else changes, apart from empty directories above it.", "quantifier": "all repositories and file systems", "why_tests_cant": "all points of failure", "anchors": ["pkm/src/pkm/repositories/git_repository.py: _Git.clone"]}
{"id": "C134", "title": "Git urls mean what they say", "statement": "The url and the branch that are given to git are those that were written in the requirement.", "quantifier": "all urls and branches", "why_tests_cant": "all schemes, users, ports and branches", "anchors": ["pkm/src/pkm/repositories/git_repository.py: GitRepository._do_match", "pkm/src/pkm/utils/http/http_client.py: Url", "pkm/src/pkm/api/versions/version.py: UrlVersion.parse"]}
{"id": "C135", "title": "Checkouts stay in the workspace", "statement": "A git checkout is inside the directory of its package in the workspace.", "quantifier": "all urls and branches", "why_tests_cant": "all urls and branches", "anchors": ["pkm/src/pkm/repositories/git_repository.py: GitRepository._do_match"]}
{"id": "C136", "title": "Packages of project groups are found", "statement": "A package that is a project of a project group in a git repository is found.", "quantifier": "all repositories", "why_tests_cant": "all groups and projects", "anchors": ["pkm/src/pkm/repositories/git_repository.py: GitRepository._do_match", "pkm/src/pkm/utils/iterators.py: single_or_raise"]}
{"id": "C137", "title": "Wheels that pkm builds install", "statement": "A wheel that pkm builds of a project can be opened by pkm, every file in it has the hash that its RECORD says, and after an installation the site has exactly the files of the packages and of the dist-info directory.", "quantifier": "all projects, file trees and contents", "why_tests_cant": "all shapes of packages and names of files", "anchors": ["pkm/src/pkm/build/pkm_builders.py: build_wheel", "pkm/src/pkm/api/distributions/wheel_distribution.py: _verify_records, _find_dist_info", "pkm/src/pkm/api/distributions/distinfo.py: RecordsFileConfiguration.sign_recursive"]}
{"id": "C138", "title": "A wheel holds the code of the project", "statement": "Every package of the project is in the wheel as it is in the project, without caches, and besides the packages only the dist-info directory is in it; building again gives the same wheel.", "quantifier": "all projects and file trees", "why_tests_cant": "all layouts of projects, repeated builds", "anchors": ["pkm/src/pkm/build/pkm_builders.py: build_wheel, _BuildContext.copy_sources", "pkm/src/pkm/api/projects/project.py: ProjectDirectories.create"]}
{"id": "C139", "title": "Builds do not depend on the working directory", "statement": "The wheel of a project is the same from whatever directory pkm runs.", "quantifier": "all projects and working directories", "why_tests_cant": "all pairs of working directories", "anchors": ["pkm/src/pkm/api/projects/pyproject_configuration.py: ProjectConfig.readme_content, license_content"]}
{"id": "C140", "title": "A source distribution gives the same wheel", "statement": "The wheel that is built from the source distribution of a project has the same files as the one that is built from the project.", "quantifier": "all projects", "why_tests_cant": "all file trees, composed builds", "anchors": ["pkm/src/pkm/build/pkm_builders.py: build_sdist, build_wheel"]}
{"id": "C141", "title": "The tag of a wheel fits the interpreters", "statement": "Every interpreter that the python requirement of a project allows accepts the tag in the name of its wheel.", "quantifier": "all requirements and interpreters", "why_tests_cant": "all versions and machines", "anchors": ["pkm/src/pkm/api/distributions/wheel_distribution.py: WheelDistribution.expected_wheel_file_name", "pkm/src/pkm/api/environments/environment_introspection.py: EnvironmentIntrospection.compatibility_score"]}
{"id": "C142", "title": "The readme of a project is its description", "statement": "When the readme field names a file, the text of the file is the description; what is written to pyproject.toml is read as the same value.", "quantifier": "all values of the field", "why_tests_cant": "all values and files", "anchors": ["pkm/src/pkm/api/projects/pyproject_configuration.py: _TextOrFileConfigFieldCodec, ProjectConfig.readme_content"]}
{"id": "C143", "title": "A file url gives what is at its path", "statement": "A requirement with a file url gives the project, wheel or source distribution that is at the path of the url.", "quantifier": "all paths and file systems", "why_tests_cant": "all paths and contents of the disk", "anchors": ["pkm/src/pkm/repositories/file_repository.py: FileRepository._do_match", "pkm/src/pkm/utils/http/http_client.py: Url.parse"]}
{"id": "C144", "title": "A file url gives the requested package", "statement": "The package that a file url gives has the name that was requested, and its file exists.", "quantifier": "all requirements and file systems", "why_tests_cant": "all pairs of names and contents", "anchors": ["pkm/src/pkm/repositories/file_repository.py: FileRepository._do_match, FileRepository.match", "pkm/src/pkm/api/repositories/repository.py: AbstractRepository.match"]}
{"id": "C145", "title": "A directory repository offers exactly its distributions", "statement": "Every distribution file in the directory is a package of the repository under its name, once, and a request is answered with exactly the packages of that name that the requirement allows and the environment can use, newest first.", "quantifier": "all directories, requirements and environments", "why_tests_cant": "all sets of files", "anchors": ["pkm/src/pkm/repositories/file_system_repository.py: FileSystemRepositoryBuilder.build, PackagesDictRepository._do_match", "pkm/src/pkm/api/repositories/repository.py: AbstractRepository.match"]}
{"id": "C146", "title": "Any spelling of a name finds the package in a directory", "statement": "A package of a directory repository is found by every spelling of its name that the packaging rules treat as equal.", "quantifier": "all spellings of all names", "why_tests_cant": "all spellings", "anchors": ["pkm/src/pkm/repositories/file_system_repository.py: PackagesDictRepository._do_match", "pkm/src/pkm/api/packages/package.py: PackageDescriptor.normalize_name"]}
{"id": "C147", "title": "A stray file does not spoil a directory repository", "statement": "A directory repository can be used whatever other files are in the directory.", "quantifier": "all directories", "why_tests_cant": "all names of files", "anchors": ["pkm/src/pkm/repositories/file_system_repository.py: FileSystemRepositoryBuilder.build, _add_package", "pkm/src/pkm/api/distributions/distribution.py: Distribution.from_file", "pkm/src/pkm/api/packages/package.py: PackageDescriptor.from_dist_name"]}
{"id": "C148", "title": "The name of a distribution file gives its name and version", "statement": "The name and the version of a package are read from the name of its distribution file as the builder wrote them.", "quantifier": "all names and versions", "why_tests_cant": "all versions in all spellings", "anchors": ["pkm/src/pkm/api/packages/package.py: PackageDescriptor.from_dist_name", "pkm/src/pkm/api/versions/version_parser.py: parse_version"]}
{"id": "C149", "title": "A repository offers only packages that exist", "statement": "Every package that a directory repository offers is a distribution or a project in it.", "quantifier": "all directories", "why_tests_cant": "all directories", "anchors": ["pkm/src/pkm/repositories/file_system_repository.py: FileSystemRepositoryBuilder.build", "pkm/src/pkm/api/projects/project.py: Project.load"]}
{"id": "C150", "title": "The dependencies of packages on the disk are known", "statement": "The dependencies of a package of a directory repository or a file url are those of its metadata.", "quantifier": "all packages on the disk", "why_tests_cant": "all kinds of packages", "anchors": ["pkm/src/pkm/api/distributions/distribution.py: Distribution.load_dependencies", "pkm/src/pkm/api/projects/project.py: Project._all_dependencies", "pkm/src/pkm/resolution/dependency_resolver.py"]}
{"id": "C151", "title": "A plain url means the file behind it", "statement": "A requirement with the url of a distribution file gives one package with the requested name whose file is downloaded from exactly this url.", "quantifier": "all urls and names", "why_tests_cant": "all urls", "anchors": ["pkm/src/pkm/repositories/url_repository.py: UrlRepository._do_match", "pkm/src/pkm/utils/http/http_client.py: Url.parse"]}
{"id": "C152", "title": "Adding packages leaves the others alone", "statement": "An installation that can be met by adding packages leaves every installed package as it is, and no installation removes a package that was there before.", "quantifier": "all environments, requests and repositories", "why_tests_cant": "all environments and resolutions", "anchors": ["pkm/src/pkm/api/packages/package_installation.py: PackageInstallationTarget.plan_installation, _InstallationRepository.match"]}
{"id": "C153", "title": "Installing does not break what is installed", "statement": "When all requests of an environment are met, with everything that the requested packages need, then after an installation the new requests and all earlier ones that were not replaced are met as well.", "quantifier": "all environments, requests and repositories", "why_tests_cant": "all environments, resolutions and extras", "anchors": ["pkm/src/pkm/api/packages/package_installation.py: PackageInstallationTarget.plan_installation"]}
{"id": "C154", "title": "What is asked for is there", "statement": "After an installation every request has a package of its name in an allowed version, and is recorded as a request of the user.", "quantifier": "all requests, environments and repositories", "why_tests_cant": "all combinations of requests", "anchors": ["pkm/src/pkm/api/packages/package_installation.py: PackageInstallationTarget.plan_installation, InstallationPlan"]}
{"id": "C155", "title": "Overrides are obeyed", "statement": "After an installation with overrides, every requirement on an overridden package is met as the override says.", "quantifier": "all overrides, requests and environments", "why_tests_cant": "all environments", "anchors": ["pkm/src/pkm/api/packages/package_installation.py: PackageInstallationTarget.plan_installation", "pkm/src/pkm/resolution/dependency_resolver.py: resolve_dependencies"]}
{"id": "C156", "title": "Packages that are to be updated stay installed", "statement": "A requested package that an installation may update is installed afterwards, in some version.", "quantifier": "all environments, requests and lists of updates", "why_tests_cant": "all environments", "anchors": ["pkm/src/pkm/api/packages/package_installation.py: PackageInstallationTarget.plan_installation"]}
{"id": "C157", "title": "Packages without a version are installed in their newest minor version", "statement": "A new package that is requested without a version is installed in a version of the newest epoch, major and minor number that the repository has.", "quantifier": "all repositories and requests", "why_tests_cant": "all sets of versions", "anchors": ["pkm/src/pkm/api/packages/package_installation.py: _InstallationRepository.match", "pkm/src/pkm/api/versions/version.py: StandardVersion.without_patch"]}
{"id": "C158", "title": "A package that does not exist is reported as such", "statement": "A request for a package that no repository has ends with the report that there is no solution.", "quantifier": "all repositories and requests", "why_tests_cant": "all requests", "anchors": ["pkm/src/pkm/api/packages/package_installation.py: _InstallationRepository.match"]}
{"id": "C159", "title": "Packages can be removed from every environment", "statement": "Removing packages works in every environment; what stays was installed before, and the remaining requests and everything that they need and that was installed is met.", "quantifier": "all environments and lists of names", "why_tests_cant": "all environments, also broken ones", "anchors": ["pkm/src/pkm/api/packages/package_installation.py: PackageInstallationTarget.uninstall, _RemovalRepository, _RemovalPackage"]}
{"id": "C160", "title": "The requirement that is written down for a new dependency", "statement": "The requirement that pkm writes for a newly installed dependency allows the installed version, and no version with another major number.", "quantifier": "all versions", "why_tests_cant": "all versions", "anchors": ["pkm/src/pkm/api/packages/package.py: PackageDescriptor.to_dependency", "pkm-cli/src/pkm_cli/controllers/prj_controller.py: ProjectController.install_dependencies"]}
{"id": "C161", "title": "Updates reach packages under every spelling of their name", "statement": "A package that is named in the list of updates is not held at its installed version, whichever spelling of its name is given.", "quantifier": "all names and spellings", "why_tests_cant": "all spellings", "anchors": ["pkm/src/pkm/api/packages/package_installation.py: PackageInstallationTarget.plan_installation", "pkm-cli/src/pkm_cli/controllers/self_controller.py: SelfController.update"]}
{"id": "C162", "title": "Every file of a wheel arrives", "statement": "After a wheel is installed, each of its files is at the place that belongs to it (the site, or the directory of its part of the data directory) with its content.", "quantifier": "all wheels, environments and file systems", "why_tests_cant": "any tree of files; the interplay of copying, launchers, compiling and the files pkm writes itself", "anchors": ["pkm/src/pkm/api/distributions/wheel_distribution.py: WheelDistribution.install_extracted_wheel", "pkm/src/pkm/utils/files.py: CopyTransaction.copy_tree"]}
{"id": "C163", "title": "The RECORD of an installed wheel is complete", "statement": "Every file that the installation of a wheel has created or changed is listed in the RECORD of the package.", "quantifier": "all wheels and file systems", "why_tests_cant": "includes launchers and compiled files for arbitrary wheels", "anchors": ["pkm/src/pkm/api/distributions/wheel_distribution.py: WheelDistribution.install_extracted_wheel", "pkm/src/pkm/api/distributions/distinfo.py: RecordsFileConfiguration.sign_files"]}
{"id": "C164", "title": "Recorded hashes are right", "statement": "Every hash and length in the RECORD of a freshly installed wheel is that of the file on the disk.", "quantifier": "all wheels, file systems and hash functions", "why_tests_cant": "all contents, all ways a file can be changed between hashing and the end", "anchors": ["pkm/src/pkm/api/distributions/wheel_distribution.py: WheelDistribution.install_extracted_wheel", "pkm/src/pkm/api/distributions/distinfo.py: RecordsFileConfiguration.sign_files"]}
{"id": "C165", "title": "Installing a wheel leaves everything else alone", "statement": "An installation changes no file and removes no directory besides the paths of the wheel's files, its launchers, its compiled files and the files of its dist-info directory.", "quantifier": "all wheels and file systems", "why_tests_cant": "quantifies over all other files", "anchors": ["pkm/src/pkm/api/distributions/wheel_distribution.py: WheelDistribution.install_extracted_wheel"]}
{"id": "C166", "title": "Removing a wheel undoes its installation", "statement": "When a wheel is installed and then removed, all files and directories are as they were before.", "quantifier": "all wheels, file systems and orders of the removal", "why_tests_cant": "round trip for arbitrary contents of the environment and every iteration order", "anchors": ["pkm/src/pkm/api/distributions/wheel_distribution.py: WheelDistribution.install_extracted_wheel", "pkm/src/pkm/api/packages/site_packages.py: InstalledPackage.uninstall"]}
{"id": "C167", "title": "A failed installation of a wheel leaves nothing behind", "statement": "A wheel whose files do not match its RECORD is refused before anything is written; if any step fails later, everything is as it was before.", "quantifier": "all wheels, file systems and points of failure", "why_tests_cant": "every system call as point of failure", "anchors": ["pkm/src/pkm/api/distributions/wheel_distribution.py: WheelDistribution.install_extracted_wheel", "pkm/src/pkm/api/distributions/wheel_distribution.py: _verify_records", "pkm/src/pkm/utils/files.py: CopyTransaction._rollback"]}
{"id": "C168", "title": "Installing over an existing RECORD", "statement": "When a package is installed where a RECORD of it exists already, the result lists each file once.", "quantifier": "all records that are there", "why_tests_cant": "all earlier states", "anchors": ["pkm/src/pkm/api/distributions/wheel_distribution.py: WheelDistribution.install_extracted_wheel", "pkm/src/pkm/api/distributions/distinfo.py: RecordsFileConfiguration"]}
{"id": "C169", "title": "Scripts get the interpreter of the environment", "statement": "A script of a wheel whose first line is #!python or #!pythonw starts with the interpreter of the environment after the installation, and the rest of it, as well as other files, is unchanged.", "quantifier": "all scripts, all interpreters", "why_tests_cant": "all texts", "anchors": ["pkm/src/pkm/api/distributions/wheel_distribution.py: WheelDistribution.install_extracted_wheel", "pkm/src/pkm/launchers/executables.py: Executables.patch_shabang_for_interpreter"]}
{"id": "C170", "title": "Launchers run the object of their entry point", "statement": "Each entry point of console_scripts and gui_scripts has a launcher in the directory for scripts that runs the object it names with the interpreter of the environment; one without an object cannot be installed.", "quantifier": "all lists of entry points", "why_tests_cant": "all names and references", "anchors": ["pkm/src/pkm/api/distributions/wheel_distribution.py: WheelDistribution.install_extracted_wheel", "pkm/src/pkm/utils/entrypoints.py: ObjectReference", "pkm/src/pkm/launchers/executables.py: Executables.generate_for_entrypoint"]}
{"id": "C171", "title": "The parts of the data directory", "statement": "Every part of the data directory of an installed wheel is a known one, and all parts that the standard names can be installed.", "quantifier": "all wheels", "why_tests_cant": "all names of directories", "anchors": ["pkm/src/pkm/api/distributions/wheel_distribution.py: WheelDistribution.install_extracted_wheel", "pkm/src/pkm/api/packages/package_installation.py: PackageInstallationTarget"]}
{"id": "C172", "title": "Only wheels of version 1 are installed", "statement": "A wheel is installed only if the major number of its Wheel-Version is 1, and into purelib exactly if Root-Is-Purelib is absent or true; every version 1 can be installed.", "quantifier": "all WHEEL files", "why_tests_cant": "all texts of versions", "anchors": ["pkm/src/pkm/api/distributions/wheel_distribution.py: WheelDistribution.install_extracted_wheel", "pkm/src/pkm/api/distributions/distinfo.py: WheelFileConfiguration.validate_supported_version"]}
{"id": "C173", "title": "The subdirectory of the own platform", "statement": "A conda channel is asked for the subdirectory that conda uses for the operating system, the processor and the bits of the interpreter, and never for the one of another system.", "quantifier": "all platforms", "why_tests_cant": "all names of machines and numbers of bits; a test runs on one", "anchors": ["repositories/conda-pkm-repo/src/conda_pkm_repo/conda_channel_subdir.py: subdir_of", "pkm/src/pkm/api/environments/environment_introspection.py: OperatingPlatform"]}
{"id": "C174", "title": "Packages of a channel are found", "statement": "A request to a channel is answered by exactly the versions the channel has for the platform and the request allows, each once and with all of its files.", "quantifier": "all channels, names and version requirements", "why_tests_cant": "unbounded indexes", "anchors": ["repositories/conda-pkm-repo/src/conda_pkm_repo/conda_channel_subdir.py: CondaChannelSubdir.__init__", "repositories/conda-pkm-repo/src/conda_pkm_repo/conda_channel_subdir.py: CondaChannelSubdir.general_package", "repositories/conda-pkm-repo/src/conda_pkm_repo/conda_repo.py: CondaRepository._do_match"]}
{"id": "C175", "title": "Version requirements of conda mean what conda says", "statement": "A requirement like 1.2.* allows exactly the versions that begin with 1.2, a list of alternatives exactly what one of them allows, and bounds are all respected.", "quantifier": "all requirements and versions", "why_tests_cant": "all texts of requirements and all versions", "anchors": ["repositories/conda-pkm-repo/src/conda_pkm_repo/conda_channel_subdir.py: _parse_specifier", "repositories/conda-pkm-repo/src/conda_pkm_repo/conda_channel_subdir.py: CondaSubdirPackageArtifact._parse_dependency"]}
{"id": "C176", "title": "A build string selects the builds that follow it", "statement": "A dependency with a build string is met by exactly the files whose build follows the pattern and whose version is the named one.", "quantifier": "all indexes, versions and patterns", "why_tests_cant": "all patterns and builds", "anchors": ["repositories/conda-pkm-repo/src/conda_pkm_repo/conda_channel_subdir.py: CondaChannelSubdir.match_artifacts_by_build", "repositories/conda-pkm-repo/src/conda_pkm_repo/conda_channel_subdir.py: CondaSubdirPackageArtifact._parse_dependency", "repositories/conda-pkm-repo/src/conda_pkm_repo/conda_repo.py: CondaRepository._do_match"]}
{"id": "C177", "title": "The chosen file runs on the interpreter", "statement": "The file that is chosen for a package allows the version of python of the environment, and a file that allows it can be chosen.", "quantifier": "all packages and interpreters", "why_tests_cant": "all requirements of python", "anchors": ["repositories/conda-pkm-repo/src/conda_pkm_repo/conda_channel_subdir.py: CondaSubdirPackageArtifact.required_python", "repositories/conda-pkm-repo/src/conda_pkm_repo/conda_channel_subdir.py: CondaSubdirPackageArtifact.compatibility_tag", "repositories/conda-pkm-repo/src/conda_pkm_repo/conda_channel_subdir.py: CondaSubdirPackage._best_artifact_for"]}
{"id": "C178", "title": "The best file is chosen", "statement": "Of the usable files of a package one with the best tag is chosen and among these one with the highest build number; if nothing is chosen nothing is usable.", "quantifier": "all packages and environments", "why_tests_cant": "unbounded lists of files", "anchors": ["repositories/conda-pkm-repo/src/conda_pkm_repo/conda_channel_subdir.py: CondaSubdirPackage._best_artifact_for"]}
{"id": "C179", "title": "A file is found by its url", "statement": "The requirement that a dependency with a build string is turned into is met by the very file it was made for.", "quantifier": "all channels and files", "why_tests_cant": "all names of files", "anchors": ["repositories/conda-pkm-repo/src/conda_pkm_repo/conda_repo.py: CondaRepository._do_match", "repositories/conda-pkm-repo/src/conda_pkm_repo/conda_channel_subdir.py: CondaChannelSubdir.single_artifact_package", "repositories/conda-pkm-repo/src/conda_pkm_repo/conda_channel_subdir.py: CondaSubdirPackageArtifact._parse_dependency"]}
{"id": "C180", "title": "Newer versions of conda packages come first", "statement": "The versions a channel is asked for come with the newest first.", "quantifier": "all channels and requests", "why_tests_cant": "unbounded lists of versions", "anchors": ["repositories/conda-pkm-repo/src/conda_pkm_repo/conda_repo.py: CondaRepository._do_match", "pkm/src/pkm/api/repositories/repository.py: AbstractRepository.match"]}
{"id": "C181", "title": "An installed dependency is written down as it was asked for", "statement": "After a successful `pkm install x` in a project, pyproject.toml lists each requested dependency once, as it was asked for or, if no version was named, with a range that begins at the installed version, and every other dependency as before.", "quantifier": "all projects and lists of requests", "why_tests_cant": "all lists of dependencies, names and versions", "anchors": ["pkm-cli/src/pkm_cli/controllers/prj_controller.py: install_dependencies"]}
{"id": "C182", "title": "A failed installation leaves the project as it was", "statement": "If the installation of new dependencies fails, the lists of dependencies, pyproject.toml and the lock file are as before, and the failed request does not influence later commands.", "quantifier": "all projects, requests and failures", "why_tests_cant": "every point of failure", "anchors": ["pkm-cli/src/pkm_cli/controllers/prj_controller.py: install_dependencies"]}
{"id": "C183", "title": "A removed dependency is gone from all lists", "statement": "After a successful removal exactly the named packages are missing from the dependencies and from every group; a removal that fails changes nothing.", "quantifier": "all projects, names and failures", "why_tests_cant": "all spellings of names and every point of failure", "anchors": ["pkm-cli/src/pkm_cli/controllers/prj_controller.py: uninstall_dependencies"]}
{"id": "C184", "title": "New dependencies are installed together with the old", "statement": "The project is installed with all of its dependencies and the new ones, each time.", "quantifier": "all projects and sequences of requests", "why_tests_cant": "all sequences of requests", "anchors": ["pkm-cli/src/pkm_cli/controllers/prj_controller.py: install_dependencies", "pkm/src/pkm/api/projects/project.py: Project"]}
{"id": "C185", "title": "A publication sends the built files of the version", "statement": "A successful publication sends every file that was built for the version, each once, with the present code; one that broke off can be completed.", "quantifier": "all projects, repositories and states of the directory", "why_tests_cant": "all contents of the directory and points of failure", "anchors": ["pkm-cli/src/pkm_cli/controllers/prj_controller.py: publish", "pkm/src/pkm/api/projects/project.py: Project.publish"]}
{"id": "C186", "title": "Stored credentials are kept and used", "statement": "Credentials that were stored are found again with the same password and with no other; storing or forgetting the ones of a repository leaves the others alone; they are used for the next publication.", "quantifier": "all stores, passwords and names", "why_tests_cant": "all sequences of changes, all passwords", "anchors": ["pkm-cli/src/pkm_cli/auth/publish_auth_store.py: PublishAuthenticationStore", "pkm-cli/src/pkm_cli/main2.py: publish"]}
{"id": "C187", "title": "Tasks attached to a command run around it", "statement": "A task in tasks/commands/<command>/before.py runs before the command and one in after.py after its success; without them the command runs as if there were no tasks.", "quantifier": "all commands, projects and sets of modules", "why_tests_cant": "all layouts of the directory of tasks", "anchors": ["pkm-cli/src/pkm_cli/api/tasks/tasks_runner.py: TasksRunner.run_attached", "pkm-cli/src/pkm_cli/api/tasks/tasks_executor.py: TasksExecutor.execute_before"]}
{"id": "C188", "title": "A task is found in the project or among the installed ones", "statement": "The name of a task means the module of the project if there is one and otherwise the installed module pkm_tasks.<name>.", "quantifier": "all names and sets of modules", "why_tests_cant": "all dotted names", "anchors": ["pkm-cli/src/pkm_cli/api/tasks/tasks_executor.py: _load_task", "pkm-cli/src/pkm_cli/api/tasks/tasks_runner.py: load_task"]}
{"id": "C189", "title": "A command runs on the nearest project, group, environment or zoo", "statement": "Without options a command runs on the nearest directory, going up from the current one, that is something the command can be run on, a project before a group, that before an environment and that before a zoo; with -c exactly the given directory is used and with -g the site that is asked for; with -T no tasks are run.", "quantifier": "all trees, directories, commands and options", "why_tests_cant": "all trees and positions in them", "anchors": ["pkm-cli/src/pkm_cli/utils/context.py: Context.run", "pkm-cli/src/pkm_cli/utils/context.py: Context.of", "pkm-cli/src/pkm_cli/main.py: main", "pkm-cli/src/pkm_cli/api/dynamic_cli/command_parser.py: Command.parent_by_path"]}
{"id": "C190", "title": "pkm install installs the packages", "statement": "`pkm install` binds the packages to the repository that is named, removes them if this is forced and then installs them; a request that is refused changes nothing.", "quantifier": "all requests and contexts", "why_tests_cant": "all combinations of options", "anchors": ["pkm-cli/src/pkm_cli/main.py: pkm_install"]}
{"id": "C191", "title": "The options of a function have names of their own", "statement": "The keyword parameters of a function become options; no name belongs to two of them or to the help.", "quantifier": "all lists of names of parameters", "why_tests_cant": "all lists of names", "anchors": ["pkm-cli/src/pkm_cli/api/dynamic_cli/method_parser.py: _generate_option_names"]}
{"id": "C192", "title": "A function is called with what was given on the command line", "statement": "A command line that is understood calls the function of the command, and each parameter has the value that was given for it or its own default.", "quantifier": "all signatures and command lines", "why_tests_cant": "all signatures and command lines", "anchors": ["pkm-cli/src/pkm_cli/api/dynamic_cli/method_parser.py: command_definition_from_method"]}
{"id": "C193", "title": "The documentation of the parameters is found", "statement": "For a function whose text documents its parameters, the help shows for each parameter its own text.", "quantifier": "all texts", "why_tests_cant": "all texts", "anchors": ["pkm-cli/src/pkm_cli/api/dynamic_cli/method_parser.py: _parse_doc"]}
{"id": "C194", "title": "A task gets the words it is given", "statement": "The words without a name go to the parameters in order and the others to the parameter they name; words that do not fit are refused.", "quantifier": "all signatures and lists of words", "why_tests_cant": "all signatures and lists of words", "anchors": ["pkm-cli/src/pkm_cli/utils/method_clis.py: CliMethodArgs"]}
{"id": "C195", "title": "A page is read as it is written", "statement": "The elements of a html page, their attributes and their texts are those that the page has.", "quantifier": "all pages", "why_tests_cant": "all pages, also those with void, unclosed or crossing elements", "anchors": ["repositories/download-torch-pkm-repo/src/download_torch_pkm_repo/utils/html.py: BasicDomParser"]}
{"id": "C196", "title": "Elements are found where they are", "statement": "Looking for elements by a chain of conditions finds exactly the elements that satisfy the last condition and have the others among themselves and their ancestors, in this order, each once and in the order of the page.", "quantifier": "all pages and conditions", "why_tests_cant": "all trees of elements and lists of conditions", "anchors": ["repositories/download-torch-pkm-repo/src/download_torch_pkm_repo/utils/html.py: Element._lookup, Element.select"]}
{"id": "C197", "title": "The known versions of cuda are those of the page", "statement": "The table of drivers is the one of the page of nvidia, or the one known before when that cannot be read, and the versions of cuda a machine can run are those that the table allows for its driver.", "quantifier": "all pages, files and drivers", "why_tests_cant": "all pages, readable or not, all tables and drivers, machines without driver", "anchors": ["repositories/download-torch-pkm-repo/src/download_torch_pkm_repo/cuda_compatibility.py: CudaCompatibilityTable.load, CudaCompatibilityTable.compatible_cuda_versions"]}
{"id": "C198", "title": "The best build for this machine is offered first", "statement": "Only builds that run on this machine are offered, all of them, and the newest for the newest cuda is the first.", "quantifier": "all packages, labels and lists of versions of cuda", "why_tests_cant": "all lists of packages and sets of labels", "anchors": ["repositories/download-torch-pkm-repo/src/download_torch_pkm_repo/torch_repository.py: DownloadTorchRepository._do_match, DownloadTorchRepository._sort_by_priority"]}
{"id": "C199", "title": "The container of an application is found by its name", "statement": "The container of a name is the one that the application with that name was installed in; all containers of an environment are listed.", "quantifier": "all environments and names", "why_tests_cant": "all sets of installed packages and spellings of names", "anchors": ["pkm/src/pkm/api/environments/package_containers.py: PackageContainers.container_of, PackageContainers.containers"]}
{"id": "C200", "title": "A container knows its application", "statement": "The application of a container is the package that was installed in it on request, and its plugins are the other packages that were requested there.", "quantifier": "all containers", "why_tests_cant": "all names of applications and sets of packages", "anchors": ["pkm/src/pkm/api/environments/package_containers.py: PackageContainer.containerized_package, PackageContainer.list_installed_plugins"]}
{"id": "C201", "title": "An application is installed once", "statement": "An application is installed in a container only if no container has it in a version that fits, and what is removed is the container that was named or the packages in it.", "quantifier": "all environments, names and versions", "why_tests_cant": "all environments, names and specifiers", "anchors": ["pkm/src/pkm/api/environments/package_containers.py: PackageContainers._get_or_install", "pkm-cli/src/pkm_cli/controllers/env_controller.py: EnvCliController.uninstall"]}
{"id": "C202", "title": "The scripts of a container run what they name", "statement": "Each script that a container exposes calls the object that the script of the application refers to.", "quantifier": "all lists of scripts", "why_tests_cant": "all lists of names of scripts", "anchors": ["pkm/src/pkm/api/environments/package_containers.py: _entrypoints_script"]}
{"id": "C203", "title": "A container sees its own packages first", "statement": "In a script of a container the packages and the commands of the container are found before those of the environment.", "quantifier": "all search paths and containers", "why_tests_cant": "all values of sys.path and PATH", "anchors": ["pkm/src/pkm/api/environments/package_containers.py: _register_container_script"]}
{"id": "C204", "title": "The report tells what is missing and what is superfluous", "statement": "The report of an environment has a line for each package outside of containers, says which of its dependencies are missing, and calls those orphans that would be removed as orphans.", "quantifier": "all environments", "why_tests_cant": "all graphs of dependencies", "anchors": ["pkm-cli/src/pkm_cli/reports/environment_report.py: EnvironmentReport.display", "pkm/src/pkm/api/packages/site_packages.py: SitePackages.find_orphan_packages"]}
{"id": "C205", "title": "Listeners listen as long as their block", "statement": "Inside of a block that listens, each method of a listener is called for the class it names, the listeners of other classes stay, and after the block everything is as before.", "quantifier": "all listeners, all nestings of blocks", "why_tests_cant": "all sequences of nested blocks and all callbacks that are installed before", "anchors": ["pkm/src/pkm/utils/monitors.py: listen, add_listeners, _create_callbacks"]}
{"id": "C206", "title": "A monitor does not change what is monitored", "statement": "An operation ends with the result or the exception it has without monitors, whoever listens, and the listeners are called in the order: enter, what is inside, fail, leave.", "quantifier": "all programs of nested operations, all callbacks", "why_tests_cant": "all nestings of operations, exceptions and handlers", "anchors": ["pkm/src/pkm/utils/monitors.py: MonitoredOperation.__enter__, MonitoredOperation.__exit__, MonitoredEvent.notify"]}
{"id": "C207", "title": "A listener around an operation is resumed once", "statement": "A listener that is written as a generator is started before the operation, and after it is resumed or gets the exception, exactly once.", "quantifier": "all programs of nested operations", "why_tests_cant": "all nestings of operations and exceptions", "anchors": ["pkm/src/pkm/utils/monitors.py: MonitoredOperation.__enter__, _Callback"]}
{"id": "C208", "title": "Every line of a process is reported", "statement": "A process that is monitored reports each line it prints, in order and without the blanks around it, and then its end with its code.", "quantifier": "all outputs and all delays", "why_tests_cant": "all interleavings of output and polls", "anchors": ["pkm/src/pkm/utils/processes.py: monitored_run"]}
{"id": "C209", "title": "Every installed Python is found once, newest first", "statement": "The interpreters of the machine are listed once for each executable, with its version, the newest first and independently of the order in which they were visited; an interpreter that does not work is skipped.", "quantifier": "all sets of executables and their outputs", "why_tests_cant": "all sets of candidates, all orders of visiting", "anchors": ["pkm/src/pkm/api/environments/installed_pythons_locator.py: InstalledPythonsLocator.all_installed"]}
{"id": "C210", "title": "Which files count as Python", "statement": "A file counts as an interpreter if it is executable and is named python, with a version and with the extension exe if there is one; they are looked for in PATH and below the search paths.", "quantifier": "all names of files and all directories", "why_tests_cant": "all names", "anchors": ["pkm/src/pkm/api/environments/installed_pythons_locator.py: _PYTHON_EXEC_RX, _as_python_executeable, _lookup_in_path, _lookup_in_env_path"]}
{"id": "C211", "title": "A new environment has the Python that was asked for", "statement": "The interpreter of a new environment is the newest one that the specifier allows, and there is an error exactly when none is; who chooses a minor version gets an interpreter of this minor version.", "quantifier": "all sets of interpreters and all specifiers", "why_tests_cant": "all sets of versions", "anchors": ["pkm/src/pkm/api/environments/environment_builder.py: EnvironmentBuilder.create_matching", "pkm-cli/src/pkm_templates/env/render.py: setup", "pkm/src/pkm/api/environments/installed_pythons_locator.py: InstalledPythonsLocator.match"]}
{"id": "C212", "title": "The opposite of an exact requirement", "statement": "For every version without local label, the inverse of a requirement of exactly this version allows exactly the versions without local label that the requirement does not allow, and the other way round.", "quantifier": "all versions without local label", "why_tests_cant": "all pairs of versions", "anchors": ["pkm/src/pkm/api/versions/version_specifiers.py: inverse (all classes), difference_from"]}
{"id": "C213", "title": "The search for orphans ends", "statement": "Whatever the dependencies of the installed packages are, cycles included, the search for packages that nobody needs ends with an answer.", "quantifier": "all graphs of installed packages", "why_tests_cant": "termination for all graphs with cycles", "anchors": ["pkm/src/pkm/api/packages/package_installation.py: PackageInstallationTarget.uninstall", "pkm/src/pkm/api/packages/site_packages.py: SitePackages.find_orphan_packages"]}
{"id": "C214", "title": "A marker ends where the requirement goes on", "statement": "A marker that is followed by a semicolon or a closing parenthesis is read up to there, is printed as it was written, and has the meaning of its text, whatever its atoms mean.", "quantifier": "all texts of markers and all continuations", "why_tests_cant": "all nestings of and, or and parentheses", "anchors": ["pkm/src/pkm/api/dependencies/env_markers.py"]}
{"id": "C215", "title": "Comparisons of texts in markers", "statement": "An environment variable is compared with a text that is no version by the order of texts, and `in` and `not in` tell whether one text is a part of the other.", "quantifier": "all environments and texts", "why_tests_cant": "all pairs of texts", "anchors": ["pkm/src/pkm/api/dependencies/env_markers.py"]}
{"id": "C216", "title": "The dependencies of a project are its own and those of its groups", "statement": "When the dependencies of a project can be computed, they begin with the mandatory ones as they are, and each further one comes from a dependency of an optional group.", "quantifier": "all lists of dependencies and groups", "why_tests_cant": "all sets of groups", "anchors": ["pkm/src/pkm/api/projects/pyproject_configuration.py: ProjectConfig.all_dependencies"]}
{"id": "C217", "title": "Cleaning works unless a file is in the way", "statement": "Removing old builds of a project fails exactly if the directory for builds is a file.", "quantifier": "all file trees", "why_tests_cant": "all file trees", "anchors": ["pkm/src/pkm/api/projects/project.py: ProjectDirectories.clean_dist"]}
{"id": "C218", "title": "The place of the environment of a project", "statement": "The environment of a project is at the path that its configuration names, else in the zoo that it names under the name of the project, and the same for the configuration of its group if it has none; without any it is the directory .venv of the project.", "quantifier": "all configurations", "why_tests_cant": "all combinations of settings", "anchors": ["pkm/src/pkm/api/projects/project.py: Project.attached_environment"]}
{"id": "C219", "title": "The parent of a group", "statement": "The parent of a group of projects is the one that its file names, and otherwise the group above that lists it.", "quantifier": "all trees of groups", "why_tests_cant": "all trees of groups", "anchors": ["pkm/src/pkm/api/projects/project_group.py: ProjectGroup.children, ProjectGroup.build_all, ProjectGroup.root, ProjectGroup._find_group"]}
{"id": "C220", "title": "Arguments of commands get their names and values", "statement": "An argument is known by its shortest long name in whatever order its names are declared; the fields of its value that are not given have their defaults, and without a default it is an error; an option that can be repeated gets all its values in order.", "quantifier": "all declarations and command lines", "why_tests_cant": "all orders of names and all words", "anchors": ["pkm-cli/src/pkm_cli/api/dynamic_cli/command_parser.py: DynamicCommandLine, CommandAST, ArgumentsBuffer"]}
{"id": "C221", "title": "The versions that the resolver sees", "statement": "The resolver sees a standard version of a package exactly if the index holds it, and sees a pre-release only if the index holds nothing but pre-releases of the package.", "quantifier": "all indexes and names", "why_tests_cant": "all sets of versions", "anchors": ["pkm/src/pkm/resolution/dependency_resolver.py: get_versions", "pkm/src/pkm/api/repositories/repository.py: AbstractRepository.match, Repository.list"]}
{"id": "C222", "title": "When an index of packages can be read", "statement": "The answer of PyPI gives a list of packages exactly if the requirement of Python of each usable file can be read and, when there is something to offer, the description of the project too.", "quantifier": "all answers of the server", "why_tests_cant": "all json documents", "anchors": ["pkm/src/pkm/repositories/pypi_repository.py: PyPiRepository._do_match, _create_artifact_from_pypi_release"]}
{"id": "C223", "title": "The name of a wheel tells its version", "statement": "The version of a wheel is the part of its file name after the first dash, and a wheel file is taken as the package of the name and version that it was built for.", "quantifier": "all names and versions of wheels", "why_tests_cant": "all names and versions", "anchors": ["pkm/src/pkm/repositories/simple_repository.py: _extract_version", "pkm/src/pkm/api/packages/package.py: PackageDescriptor.from_dist_name", "pkm/src/pkm/api/versions/version_parser.py: parse_version"]}
{"id": "C224", "title": "Downloads are kept inside of the workspace and apart", "statement": "A download is kept below the workspace when no part of its url is `..`, and two urls that have a path are kept in different places unless their hashes collide.", "quantifier": "all urls", "why_tests_cant": "all pairs of urls", "anchors": ["pkm/src/pkm/utils/http/http_client.py: HttpClient._resource_files_of"]}
{"id": "C225", "title": "A page of an index lists its links", "statement": "The links of a page are those of its anchors, in their order, and the packages that are found are the versions that occur in file names and are allowed, each once and with all its files.", "quantifier": "all pages and specifiers", "why_tests_cant": "all pages", "anchors": ["pkm/src/pkm/repositories/simple_repository.py: SimpleRepository._do_match"]}
{"id": "C226", "title": "A record file is written if its records are complete", "statement": "The record of a package is saved exactly if each of its entries has a file, a hash and a length; what is loaded has one entry for each row, with the file that is first in the row.", "quantifier": "all lists of entries and all files", "why_tests_cant": "all record files", "anchors": ["pkm/src/pkm/config/configfiles.py: CSVConfigIO.write", "pkm/src/pkm/api/distributions/distinfo.py: RecordsFileConfiguration", "pkm/src/pkm/config/configfiles.py: CSVConfigIO.read", "pkm/src/pkm/api/distributions/distinfo.py: Record"]}
{"id": "C227", "title": "An upload sends every field", "statement": "Every value of every metadata field is sent under the name that the index expects, and what is no wheel is sent as a source distribution.", "quantifier": "all metadata", "why_tests_cant": "all metadata and file names", "anchors": ["pkm/src/pkm/repositories/pypi_repository.py: PyPiPublisher.publish"]}
{"id": "C228", "title": "The readme of a project", "statement": "A value for a text or a file is written so that it is read back, and a readme given by the name of a file is the text of that file in the directory of the project.", "quantifier": "all values and file trees", "why_tests_cant": "all values", "anchors": ["pkm/src/pkm/api/projects/pyproject_configuration.py: _TextOrFileConfigFieldCodec, ProjectConfig.readme_content"]}
{"id": "C229", "title": "The dependencies of a local project", "statement": "The dependencies of a project in a directory are those of its configuration, or those of its build if they are dynamic, that apply to the environment and the extras.", "quantifier": "all projects, environments and extras", "why_tests_cant": "all markers and environments", "anchors": ["pkm/src/pkm/api/distributions/distribution.py: Distribution.load_dependencies", "pkm/src/pkm/api/projects/project.py: Project._all_dependencies", "pkm/src/pkm/resolution/dependency_resolver.py"]}
{"id": "C230", "title": "Installed versions are offered first", "statement": "When packages have to be changed, the version of a package that is installed is offered to the resolver before all others, and nothing is lost or added.", "quantifier": "all repositories and installed packages", "why_tests_cant": "all lists of packages", "anchors": ["pkm/src/pkm/api/packages/package_installation.py: PackageInstallationTarget.plan_installation"]}
{"id": "C231", "title": "What is recorded as requested", "statement": "After planning an installation, what is recorded as requested are the requests of before that are not updated and, if a user asked, the new ones; requests of before are kept when no user asked.", "quantifier": "all environments and plans", "why_tests_cant": "all sets of requests", "anchors": ["pkm/src/pkm/api/packages/package_installation.py: PackageInstallationTarget.plan_installation, InstallationPlan"]}
{"id": "C232", "title": "A generalised requirement allows the version it was made from", "statement": "The requirement that is written down for an installed version of a package has its name and allows this version.", "quantifier": "all names and versions", "why_tests_cant": "all versions", "anchors": ["pkm/src/pkm/api/packages/package.py: PackageDescriptor.to_dependency", "pkm-cli/src/pkm_cli/controllers/prj_controller.py: ProjectController.install_dependencies"]}
{"id": "C233", "title": "A wheel that was changed is not installed", "statement": "If a file of a wheel does not have the hash that the record of the wheel gives, the installation is refused before anything is written, whatever else the wheel has.", "quantifier": "all wheels, environments and hashes", "why_tests_cant": "all wheels", "anchors": ["pkm/src/pkm/api/distributions/wheel_distribution.py: WheelDistribution.install_extracted_wheel", "pkm/src/pkm/api/distributions/wheel_distribution.py: _verify_records", "pkm/src/pkm/utils/files.py: CopyTransaction._rollback"]}
{"id": "C234", "title": "A wheel that is installed has the known format", "statement": "An installed wheel has no directories of data but the known ones, has a format of version 1 if it gives one, and goes to the pure or the platform library as it says.", "quantifier": "all wheels", "why_tests_cant": "all wheels", "anchors": ["pkm/src/pkm/api/distributions/wheel_distribution.py: WheelDistribution.install_extracted_wheel", "pkm/src/pkm/api/packages/package_installation.py: PackageInstallationTarget", "pkm/src/pkm/api/distributions/distinfo.py: WheelFileConfiguration.validate_supported_version"]}
{"id": "C235", "title": "Repositories of conda belong to the platform", "statement": "The directory of a conda channel that is asked is one for the operating system, the bits and the processor of the platform.", "quantifier": "all platforms", "why_tests_cant": "all platforms", "anchors": ["repositories/conda-pkm-repo/src/conda_pkm_repo/conda_channel_subdir.py: subdir_of", "pkm/src/pkm/api/environments/environment_introspection.py: OperatingPlatform"]}
{"id": "C236", "title": "Builds of conda packages", "statement": "Every build whose name follows the pattern of a dependency is found among the versions it allows, and if no build is found the dependency allows nothing.", "quantifier": "all channels and dependencies", "why_tests_cant": "all patterns", "anchors": ["repositories/conda-pkm-repo/src/conda_pkm_repo/conda_channel_subdir.py: CondaChannelSubdir.match_artifacts_by_build", "repositories/conda-pkm-repo/src/conda_pkm_repo/conda_channel_subdir.py: CondaSubdirPackageArtifact._parse_dependency", "repositories/conda-pkm-repo/src/conda_pkm_repo/conda_repo.py: CondaRepository._do_match"]}
{"id": "C237", "title": "A failed installation does not change the lists of a project", "statement": "When the installation of dependencies of a project fails, the lists of dependencies of the project are as before; when a removal succeeds, exactly the dependencies with one of the names are gone from each list, in the file too.", "quantifier": "all projects and outcomes", "why_tests_cant": "all failures", "anchors": ["pkm-cli/src/pkm_cli/controllers/prj_controller.py: install_dependencies", "pkm-cli/src/pkm_cli/controllers/prj_controller.py: uninstall_dependencies"]}
{"id": "C238", "title": "Stored credentials", "statement": "Credentials that are stored are found again with the same password while the others stay, those that are removed are gone while the others stay, and another password opens and changes nothing.", "quantifier": "all stores, passwords and names", "why_tests_cant": "all sequences of operations on the store", "anchors": ["pkm-cli/src/pkm_cli/auth/publish_auth_store.py: PublishAuthenticationStore", "pkm-cli/src/pkm_cli/main2.py: publish"]}
{"id": "C239", "title": "Tasks of a project", "statement": "A command without attached tasks runs once and has its own outcome; a task is attached by the file of its name; a task of the project comes before an installed one.", "quantifier": "all projects and commands", "why_tests_cant": "all sets of modules", "anchors": ["pkm-cli/src/pkm_cli/api/tasks/tasks_runner.py: TasksRunner.run_attached", "pkm-cli/src/pkm_cli/api/tasks/tasks_executor.py: TasksExecutor.execute_before", "pkm-cli/src/pkm_cli/api/tasks/tasks_executor.py: _load_task", "pkm-cli/src/pkm_cli/api/tasks/tasks_runner.py: load_task"]}
{"id": "C240", "title": "What a command works on", "statement": "A command works on the nearest directory above that suits it, with a project before a group, that before an environment and that before a zoo; it is refused if there is none; a directory that is named is used or none; the global context is the environment of the interpreter.", "quantifier": "all file trees and commands", "why_tests_cant": "all file trees", "anchors": ["pkm-cli/src/pkm_cli/utils/context.py: Context.run", "pkm-cli/src/pkm_cli/utils/context.py: Context.of", "pkm-cli/src/pkm_cli/main.py: main", "pkm-cli/src/pkm_cli/api/dynamic_cli/command_parser.py: Command.parent_by_path"]}
{"id": "C241", "title": "Installing from a named repository", "statement": "Packages that are to come from a named repository are bound to it first, and removed and installed again if they were not bound to it.", "quantifier": "all packages and bindings", "why_tests_cant": "all sets of packages", "anchors": ["pkm-cli/src/pkm_cli/main.py: pkm_install"]}
{"id": "C242", "title": "Options of functions", "statement": "When a function becomes a command, no name is given to two options; a parameter of one letter is an option of that letter, any other has its name with dashes and perhaps one of its letters; what is not given has the default of the function; values are read with the class of the parameter.", "quantifier": "all signatures", "why_tests_cant": "all lists of parameters", "anchors": ["pkm-cli/src/pkm_cli/api/dynamic_cli/method_parser.py: _generate_option_names", "pkm-cli/src/pkm_cli/api/dynamic_cli/method_parser.py: command_definition_from_method"]}
{"id": "C243", "title": "Pages of html are read as they are nested", "statement": "Exactly the pages without an end that ends nothing are read; the elements that are found for a list of matchers are the ends of the branches along which the matchers hold, each as often as it is in the page; an attribute has its last value.", "quantifier": "all pages and matchers", "why_tests_cant": "all trees of elements", "anchors": ["repositories/download-torch-pkm-repo/src/download_torch_pkm_repo/utils/html.py: BasicDomParser", "repositories/download-torch-pkm-repo/src/download_torch_pkm_repo/utils/html.py: Element._lookup, Element.select"]}
{"id": "C244", "title": "Builds of torch", "statement": "The builds that are offered are those for the cpu, if allowed, and those of versions of cuda that the machine can run; builds for cuda come first and newer ones before older ones.", "quantifier": "all lists of packages and labels", "why_tests_cant": "all lists of packages", "anchors": ["repositories/download-torch-pkm-repo/src/download_torch_pkm_repo/cuda_compatibility.py: CudaCompatibilityTable.load, CudaCompatibilityTable.compatible_cuda_versions", "repositories/download-torch-pkm-repo/src/download_torch_pkm_repo/torch_repository.py: DownloadTorchRepository._do_match, DownloadTorchRepository._sort_by_priority"]}
{"id": "C245", "title": "Containers of applications", "statement": "The containers of an environment are its packages that are containers; the plugins of one are the requested packages beside the application; an application is installed only if it is not there in a version that fits; what is removed is the container or the named packages in it.", "quantifier": "all environments", "why_tests_cant": "all sets of packages", "anchors": ["pkm/src/pkm/api/environments/package_containers.py: PackageContainers.container_of, PackageContainers.containers", "pkm/src/pkm/api/environments/package_containers.py: PackageContainer.containerized_package, PackageContainer.list_installed_plugins", "pkm/src/pkm/api/environments/package_containers.py: PackageContainers._get_or_install", "pkm-cli/src/pkm_cli/controllers/env_controller.py: EnvCliController.uninstall"]}
{"id": "C246", "title": "The report of an environment", "statement": "The report has one line for each package outside of containers, or each requested one; the dependencies that it calls missing are those that apply and that no package outside of containers provides; it calls orphan what was not asked for and what no package outside of containers needs.", "quantifier": "all environments", "why_tests_cant": "all graphs of dependencies", "anchors": ["pkm-cli/src/pkm_cli/reports/environment_report.py: EnvironmentReport.display", "pkm/src/pkm/api/packages/site_packages.py: SitePackages.find_orphan_packages"]}
{"id": "C247", "title": "Listeners are called in order", "statement": "The last listener for a class is the one that is called, other classes keep theirs; for an operation a listener that raises nothing is called at the start, then what is inside, then at a failure, then at the end; a generator is started before and resumed after, or gets the exception.", "quantifier": "all listeners and programs", "why_tests_cant": "all nestings of operations", "anchors": ["pkm/src/pkm/utils/monitors.py: listen, add_listeners, _create_callbacks", "pkm/src/pkm/utils/monitors.py: MonitoredOperation.__enter__, MonitoredOperation.__exit__, MonitoredEvent.notify", "pkm/src/pkm/utils/monitors.py: MonitoredOperation.__enter__, _Callback"]}
{"id": "C248", "title": "The lines of a process", "statement": "Each line that a process prints is reported in order without the blanks around it, and its end comes last and once.", "quantifier": "all outputs", "why_tests_cant": "all interleavings of output and polls", "anchors": ["pkm/src/pkm/utils/processes.py: monitored_run"]}
{"id": "C249", "title": "The Python of an environment", "statement": "Interpreters whose versions have no local label are sorted from new to old; a file counts as one exactly by its name, as an executable file in PATH; the newest that a specifier allows is taken, and there is an error exactly if none is allowed; a chosen minor version means the versions from its first to before the first of the next minor version.", "quantifier": "all interpreters, names and specifiers", "why_tests_cant": "all sets of versions and all names", "anchors": ["pkm/src/pkm/api/environments/installed_pythons_locator.py: InstalledPythonsLocator.all_installed", "pkm/src/pkm/api/environments/installed_pythons_locator.py: _PYTHON_EXEC_RX, _as_python_executeable, _lookup_in_path, _lookup_in_env_path", "pkm/src/pkm/api/environments/environment_builder.py: EnvironmentBuilder.create_matching", "pkm-cli/src/pkm_templates/env/render.py: setup", "pkm/src/pkm/api/environments/installed_pythons_locator.py: InstalledPythonsLocator.match"]}
{"id": "C250", "title": "A conda package whose files are not as signed is refused", "statement": "If a path in info/paths.json is missing from the archive or has another sha256, or if there is no paths.json, then nothing is installed and the environment is untouched.", "quantifier": "all packages, all targets, all positions of the bad path", "why_tests_cant": "all places where a file may have been changed", "anchors": ["repositories/conda-pkm-repo/src/conda_pkm_repo/conda_distribution.py: CondaDistribution.install_to"]}
{"id": "C251", "title": "The files of a conda package are installed as signed", "statement": "After an installation every file listed in info/files is at its place in the environment, with the content whose hash is in paths.json; what was in the library of some version of Python is in the library of the Python of the environment.", "quantifier": "all packages and targets", "why_tests_cant": "all layouts of packages", "anchors": ["repositories/conda-pkm-repo/src/conda_pkm_repo/conda_distribution.py: CondaDistribution.install_to", "pkm/src/pkm/utils/files.py: CopyTransaction"]}
{"id": "C252", "title": "The RECORD of a conda package is right", "statement": "After an installation the RECORD can be read, and it has every installed file with its hash and its size, and nothing else.", "quantifier": "all packages and targets", "why_tests_cant": "all layouts of packages and all contents", "anchors": ["repositories/conda-pkm-repo/src/conda_pkm_repo/conda_distribution.py: CondaDistribution.install_to", "pkm/src/pkm/api/distributions/distinfo.py: RecordsFileConfiguration.sign_files"]}
{"id": "C253", "title": "Whatever the installation of a conda package creates is recorded", "statement": "Every file that is new after an installation is in the RECORD, or is the RECORD, so that it is removed with the package.", "quantifier": "all packages and targets", "why_tests_cant": "all layouts of packages and environments", "anchors": ["repositories/conda-pkm-repo/src/conda_pkm_repo/conda_distribution.py: CondaDistribution.install_to", "repositories/conda-pkm-repo/src/conda_pkm_repo/conda_distribution.py: CondaDistribution._generate_dist_info"]}
{"id": "C254", "title": "Conda packages that the user asked for are marked as such", "statement": "If a conda package is installed because of a request of the user then REQUESTED is written.", "quantifier": "all packages and requests", "why_tests_cant": "all requests", "anchors": ["repositories/conda-pkm-repo/src/conda_pkm_repo/conda_distribution.py: CondaDistribution.install_to"]}
{"id": "C255", "title": "An installation of a conda package that fails leaves no trace", "statement": "If the installation fails at any step then the environment is as before.", "quantifier": "all packages, all targets and all points of failure", "why_tests_cant": "every system call may fail", "anchors": ["repositories/conda-pkm-repo/src/conda_pkm_repo/conda_distribution.py: CondaDistribution.install_to", "pkm/src/pkm/utils/files.py: CopyTransaction"]}
{"id": "C256", "title": "The hooks of conda packages are run", "statement": "A package with a pre-link or post-link script is installed, and the script is run.", "quantifier": "all packages", "why_tests_cant": "all packages with hooks", "anchors": ["repositories/conda-pkm-repo/src/conda_pkm_repo/conda_distribution.py: CondaDistribution.install_to"]}
{"id": "C257", "title": "Conda packages for all platforms can be imported", "statement": "The modules of a noarch package, below site-packages in the archive, are installed into the library of the environment.", "quantifier": "all noarch packages", "why_tests_cant": "all layouts", "anchors": ["repositories/conda-pkm-repo/src/conda_pkm_repo/conda_distribution.py: CondaDistribution.install_to"]}
{"id": "C258", "title": "The installation of a conda package touches nothing else", "statement": "Files that are not of the package, nor its dist-info files, are as before.", "quantifier": "all packages, targets and other files", "why_tests_cant": "all other files", "anchors": ["repositories/conda-pkm-repo/src/conda_pkm_repo/conda_distribution.py: CondaDistribution.install_to", "pkm/src/pkm/utils/files.py: CopyTransaction"]}
{"id": "C259", "title": "A file of sections is read as it was written", "statement": "What INIConfigIO writes for a dictionary of sections is read back as the same dictionary.", "quantifier": "all dictionaries of texts and sections", "why_tests_cant": "all names and values", "anchors": ["pkm/src/pkm/config/configfiles.py:41-67"]}
{"id": "C260", "title": "A value that cannot be written is refused before anything is written", "statement": "If one value of a dictionary cannot be written then writing fails and the file stays as it was; other dictionaries are written.", "quantifier": "all dictionaries", "why_tests_cant": "all positions of the bad value", "anchors": ["pkm/src/pkm/config/configfiles.py:41-67"]}
{"id": "C261", "title": "The entry points of a package are read as they were saved", "statement": "The entry points that a build saves in entry_points.txt are those that are loaded from it, and the files of other tools mean what the specification of entry points says.", "quantifier": "all lists of entry points", "why_tests_cant": "all names and references", "anchors": ["pkm/src/pkm/api/distributions/distinfo.py:210-230", "pkm/src/pkm/config/configfiles.py:41-67"]}
{"id": "C262", "title": "The entry points of an environment are those of its packages", "statement": "The entry points of a group are those that the installed packages have in it, with their package and in order; one bad package does not hide the others.", "quantifier": "all sets of installed packages", "why_tests_cant": "all files of entry points", "anchors": ["pkm/src/pkm/api/environments/environment.py:294-305", "pkm/src/pkm/api/distributions/distinfo.py:210-230", "pkm/src/pkm/api/repositories/repository_loader.py:53-69"]}
{"id": "C263", "title": "What is defined twice or makes no sense is refused", "statement": "A file in which the same section is opened twice, or a name is given twice in a section, or a line means nothing, is not read with parts missing, but refused.", "quantifier": "all files", "why_tests_cant": "all surroundings of the two", "anchors": ["pkm/src/pkm/config/configfiles.py:41-67"]}
{"id": "C264", "title": "Extracting a wheel stays inside", "statement": "Extracting a zip archive or a wheel changes nothing outside the directory it is extracted to, whatever the names of its members are and whether it succeeds or fails in the middle.", "quantifier": "all archives and file systems without links in the target", "why_tests_cant": "all names of members, all places outside", "anchors": ["pkm/src/pkm/utils/archives.py:9-22"]}
{"id": "C265", "title": "Extracting a source distribution stays inside", "statement": "Extracting a tar archive (a source distribution, a conda package) changes nothing outside the directory it is extracted to, whatever it has as members.", "quantifier": "all archives and file systems", "why_tests_cant": "all names of members and links; attacks are found by search, not by samples", "anchors": ["pkm/src/pkm/utils/archives.py:9-22"]}
{"id": "C266", "title": "Archives are extracted completely", "statement": "What is extracted to an empty directory are exactly the files of the archive, each at the place its name says with its own content.", "quantifier": "all archives", "why_tests_cant": "all sets of members with their directories in all orders", "anchors": ["pkm/src/pkm/utils/archives.py:9-22"]}
{"id": "C267", "title": "The name decides how an archive is read", "statement": "An archive whose name has none of the supported ends, or that is not what its name says, is refused and nothing is written.", "quantifier": "all names, archives and file systems", "why_tests_cant": "all names", "anchors": ["pkm/src/pkm/utils/archives.py:9-22"]}
{"id": "C268", "title": "Dependency resolution ends", "statement": "The resolver ends on every package index with finitely many packages and versions: with a solution, or with an error. In particular it ends when there is a solution.", "quantifier": "all package indexes, and every order in which changed packages are taken from the set", "why_tests_cant": "that a run never ends cannot be observed, and a test can only wait", "anchors": ["pkm/src/pkm/resolution/pubgrub.py: Solver.solve, Solver._propagate, Solver._make_next_decision, Incompatibility.check_satisfaction"]}
{"id": "C269", "title": "What is over is not displayed any more", "statement": "When the body of a show has ended and the show has returned, its component is not in the live output, whatever other threads do at the same time.", "quantifier": "all schedules of the threads that show components", "why_tests_cant": "all interleavings of reading and writing the list", "anchors": ["pkm-cli/src/pkm_cli/display/display.py: _LiveOutput.show, _LiveOutput._refresh_loop"]}
{"id": "C270", "title": "What is shown is displayed", "statement": "While the body of a show runs, its component is in the live output.", "quantifier": "all schedules of the threads that show components", "why_tests_cant": "all interleavings of reading and writing the list", "anchors": ["pkm-cli/src/pkm_cli/display/display.py: _LiveOutput.show, _LiveOutput._refresh_loop"]}
{"id": "C271", "title": "The live output is redrawn while something is shown", "statement": "While the body of a show runs, the refreshing thread does not sleep on the condition that wakes it when a component comes.", "quantifier": "all schedules of the threads that show components and of the refresher", "why_tests_cant": "all interleavings; a lost wake-up is seen once in a great many runs", "anchors": ["pkm-cli/src/pkm_cli/display/display.py: _LiveOutput.show, _LiveOutput._refresh_loop"]}
{"id": "C272", "title": "The live output holds started components, each once", "statement": "At every moment, the live output holds no component twice and none whose show has not begun to add it.", "quantifier": "all schedules", "why_tests_cant": "all interleavings of reading and writing the list", "anchors": ["pkm-cli/src/pkm_cli/display/display.py: _LiveOutput.show, _LiveOutput._refresh_loop"]}
{"id": "C273", "title": "Help can be shown for every command that can be run", "statement": "If a command, task or sub-command can be run then asking for its help shows a usage line instead of failing.", "quantifier": "all definitions of arguments", "why_tests_cant": "all sets of options, names, types and fields that a definition or a signature can give", "anchors": ["pkm-cli/src/pkm_cli/api/dynamic_cli/help_generator.py: generate_usage, _create_option_usage_tokens", "pkm-cli/src/pkm_cli/api/dynamic_cli/command_parser.py: short_name"]}
{"id": "C274", "title": "The overview lists every argument and sub-command", "statement": "Every option that a word can stand for, every positional argument and every sub-command has its line in the overview, with all names in order of length and its help; no option is listed twice, and a name is listed with what it stands for.", "quantifier": "all commands", "why_tests_cant": "all sets of arguments and sub-commands", "anchors": ["pkm-cli/src/pkm_cli/api/dynamic_cli/help_generator.py: generate_arguments_overview", "pkm-cli/src/pkm_cli/api/dynamic_cli/command_parser.py: display_name, defined_names"]}
{"id": "C275", "title": "The usage spells every option and field as it is typed", "statement": "Every option and every field of a command is in its usage line, by a name that can be typed or by its letter in a word of flags.", "quantifier": "all commands", "why_tests_cant": "all sets of options and fields", "anchors": ["pkm-cli/src/pkm_cli/api/dynamic_cli/help_generator.py: generate_usage, _create_option_usage_tokens"]}
{"id": "C276", "title": "Options that exclude each other are shown as alternatives", "statement": "Options of one exclusive group are shown between bars in one pair of brackets, so that no reader takes them for options that can be given together.", "quantifier": "all groups of options", "why_tests_cant": "all groups", "anchors": ["pkm-cli/src/pkm_cli/api/dynamic_cli/help_generator.py: generate_usage"]}
{"id": "C277", "title": "The brackets of a usage match", "statement": "In a usage line every bracket that is opened is closed, so that what is optional can be told.", "quantifier": "all commands", "why_tests_cant": "all sets of arguments, fields and groups", "anchors": ["pkm-cli/src/pkm_cli/api/dynamic_cli/help_generator.py: generate_usage, _create_option_usage_tokens"]}
{"id": "C278", "title": "The name of a type is shown as words in upper case", "statement": "The value of an option is shown as the name of its type, cut into words at the changes of case and at no other place, in upper case with a line between them.", "quantifier": "all names of types", "why_tests_cant": "all strings", "anchors": ["pkm/src/pkm/utils/formatting.py: split_camel_case, to_upper_snake_case"]}
{"id": "C279", "title": "PKM_HOME decides where pkm keeps its data", "statement": "If the variable PKM_HOME is set, pkm keeps everything in that directory; otherwise in the one that the platform names for data of programs, whatever directory pkm is run in.", "quantifier": "all environments", "why_tests_cant": "all values of the variables, platforms and directories", "anchors": ["pkm/src/pkm/api/pkm.py: pkm_home, _default_home_directory, Pkm.home", "pkm/src/pkm/api/buildsys.py: buildsys_pkm"]}
{"id": "C280", "title": "Cleaning the cache removes the caches and nothing else", "statement": "After the cache is cleaned there is nothing under repos, build-cache and resources/http of the home; everything else that was there is as it was.", "quantifier": "all states of the disk", "why_tests_cant": "all trees of files", "anchors": ["pkm/src/pkm/api/pkm.py: Pkm.clean_cache, Pkm.repository_loader", "pkm/src/pkm/build/source_build_cache.py: SourceBuildCache.__init__"]}
{"id": "C281", "title": "A build through the hooks leaves the home and the modules alone", "statement": "If there is no home of pkm, a build through the hooks of a build backend works in a directory of its own that is gone afterwards, makes no home, and leaves the modules of pkm as they were.", "quantifier": "all builds", "why_tests_cant": "all builds, hooks and trees of files", "anchors": ["pkm/src/pkm/api/buildsys.py: buildsys_pkm, build_wheel, build_sdist, build_editable"]}
{"id": "C282", "title": "The mode that is given decides how a package is stored", "statement": "A package that is installed with --mode copy is copied and one with --mode editable is linked, whatever its name and kind, and the mode that is recorded is what was done.", "quantifier": "all packages and modes", "why_tests_cant": "all names, kinds of packages, modes and installed packages", "anchors": ["pkm-cli/src/pkm_cli/main.py: pkm_install", "pkm-cli/src/pkm_cli/controllers/prj_controller.py: install_dependencies", "pkm/src/pkm/api/packages/standard_package.py: install_to", "pkm/src/pkm/api/projects/project.py: install_to", "pkm/src/pkm/api/packages/package_installation.py: InstallationPlan"]}
{"id": "C283", "title": "An object that hands on answers as the object it wraps", "statement": "A class made with delegate answers every member of the interface that it does not define itself as the object it wraps does, so that the repository an installation works with has the name, the publisher and the conditions of the repository it wraps.", "quantifier": "all members", "why_tests_cant": "all classes, interfaces, wrapped objects, members and arguments", "anchors": ["pkm/src/pkm/utils/delegations.py: delegate, delegate_all", "pkm/src/pkm/api/packages/package_installation.py: _InstallationRepository"]}
{"id": "C284", "title": "A published distribution arrives with all its metadata", "statement": "The upload of a distribution has a field for every value of the metadata under the name the index knows it by, the digests of exactly the file that is sent, the kind of the distribution and the python tag of a wheel, and nothing else.", "quantifier": "all distributions", "why_tests_cant": "all metadata, file names, contents and digests", "anchors": ["pkm/src/pkm/repositories/pypi_repository.py: PyPiPublisher.publish", "pkm/src/pkm/utils/http/mfd_payload.py: FormField, MultipartFormDataPayload"]}
{"id": "C285", "title": "The credentials arrive as they were given", "statement": "A server that reads the header of an upload finds the name and the password that the user gave, different credentials give different headers, and no password can break the header.", "quantifier": "all credentials", "why_tests_cant": "all names and passwords", "anchors": ["pkm/src/pkm/utils/http/auth.py: BasicAuthentication.as_header", "pkm/src/pkm/repositories/pypi_repository.py: PyPiPublisher.publish"]}
{"id": "C286", "title": "A package is published to the repository that the configuration names", "statement": "The publisher of a name belongs to the nearest repository of that name in the configuration as it is now, carries its name, and a name that is not configured is refused.", "quantifier": "all configurations", "why_tests_cant": "all chains of configurations, builders, names and earlier questions", "anchors": ["pkm/src/pkm/api/repositories/repository_management.py: publisher_for, _publishers", "pkm/src/pkm/api/repositories/repository_loader.py: build"]}
{"id": "C287", "title": "Environments that differ in a marker have different hashes", "statement": "The text from which the hash of an environment is computed does not depend on the order of the markers, and is different for environments that differ in any marker.", "quantifier": "all markers", "why_tests_cant": "all names and values of markers, in all orders", "anchors": ["pkm/src/pkm/api/environments/environment.py: markers_hash"]}
{"id": "C288", "title": "A message is shown as it is", "statement": "What the program prints appears on the screen as it is, apart from the styles that the program itself puts into its messages.", "quantifier": "all messages", "why_tests_cant": "all texts, with brackets and backslashes at any place", "anchors": ["pkm-cli/src/pkm_cli/display/display.py: print", "pkm-cli/src/pkm_cli/cli_monitors.py: with_external_proc_execution, with_dependency_resolution"]}
{"id": "C289", "title": "The result of a resolution and the processes that run are told", "statement": "The conclusion of a resolution shows every package that was decided on with its extras and its version, and every process is announced with its command before it runs.", "quantifier": "all decisions and commands", "why_tests_cant": "all sets of decisions with any extras, and all commands", "anchors": ["pkm-cli/src/pkm_cli/cli_monitors.py: with_dependency_resolution, with_external_proc_execution", "pkm-cli/src/pkm_cli/display/spinner.py: Spinner", "pkm/src/pkm/resolution/dependency_resolver.py: _Pkg"]}
{"id": "C290", "title": "The executable made for a script suits the system", "statement": "For an entry point of a package, the environment gets an executable that its operating system can start: on Windows a launcher with the extension exe, for the processor and for the console or for windows as the entry point says; on posix systems a text that begins with its interpreter.", "quantifier": "all platforms, entry points and scripts", "why_tests_cant": "all combinations of system, processor, width, group, name and script; tests run on one platform only", "anchors": ["pkm/src/pkm/launchers/__init__.py: build_windows_script_launcher", "pkm/src/pkm/launchers/executables.py: Executables.generate, generate_for_entrypoint", "pkm/src/pkm/api/environments/environment.py: OperatingPlatform"]}
{"id": "C291", "title": "A script starts the interpreter of its environment", "statement": "When a script of an environment, made for an entry point or shipped in a wheel, is started, the system runs the interpreter of that environment and passes it the script alone.", "quantifier": "all paths of interpreters and all scripts", "why_tests_cant": "all paths, with blanks and of any length, and all first lines of scripts", "anchors": ["pkm/src/pkm/launchers/executables.py: Executables.generate, patch_shabang_for_interpreter"]}
{"id": "C292", "title": "A task that is listed can be run", "statement": "The list of tasks names every task of the project and every installed one, and each name in it runs the task it was made for.", "quantifier": "all trees of tasks", "why_tests_cant": "all trees of directories and files, with any names, and all sets of installed tasks", "anchors": ["pkm-cli/src/pkm_cli/api/tasks/tasks_executor.py: _load_all_tasks, _load_task", "pkm-cli/src/pkm_cli/api/tasks/execute_task_cli.py: _load_all_tasks, _load_task"]}
{"id": "C293", "title": "An application that is installed from its wheel works like one that is installed from its project", "statement": "The commands in the container of an application run under the interpreter of the environment the application is installed in, and its wheel is only offered to platforms that its packages suit.", "quantifier": "all applications, environments and packages", "why_tests_cant": "all applications, sets of scripts and environments; the wheel has to be carried to another environment after the first one is gone", "anchors": ["pkm/src/pkm/build/pkm_app_builders.py: build_wheel", "pkm/src/pkm/api/environments/package_containers.py: _install", "pkm/src/pkm/api/distributions/wheel_distribution.py: expected_wheel_file_name, install_extracted_wheel"]}
{"id": "C294", "title": "The installer installs with the newest release of pkm", "statement": "The script get_pkm.py fetches the source archive of the newest release of pkm that the index has, and installs with it.", "quantifier": "all answers of the index", "why_tests_cant": "all lists of releases and files in any order; a test sees the releases of one day", "anchors": ["get_pkm.py: _install"]}
{"id": "C295", "title": "A new environment works", "statement": "Creating an environment for an interpreter puts into it, and nowhere else, the commands python, python3 and python3.x that lead to that interpreter, its settings and its library directory under both of its names; nothing is done where something exists.", "quantifier": "all paths, directories and interpreters", "why_tests_cant": "all absolute and relative paths, working directories, systems and versions of interpreters", "anchors": ["pkm/src/pkm/api/environments/environment_builder.py: EnvironmentBuilder.create"]}
{"id": "C296", "title": "What is known about the interpreter of an environment", "statement": "What pkm knows about the interpreter of an environment is what that interpreter says about itself; it is saved, so that the interpreter is run only once for it, and rebuilt if the file is broken or the interpreter has another path.", "quantifier": "all sequences of uses in all processes", "why_tests_cant": "all sequences of processes, each with its own seed for hashes, all interpreters and all contents of the file", "anchors": ["pkm/src/pkm/api/environments/environment_introspection.py: EnvironmentIntrospection.load_or_compute", "pkm/src/pkm/api/environments/environment.py: Environment._introspection"]}
{"id": "C297", "title": "An interpreter has one version", "statement": "The marker implementation_version of an environment is a version that is read back as that of its interpreter, and the version that requires-python is held against is the same.", "quantifier": "all interpreters", "why_tests_cant": "all versions of interpreters, final and not", "anchors": ["pkm/src/pkm/api/environments/environment_introspection.py: compute_markers", "pkm/src/pkm/api/environments/environment.py: interpreter_version"]}
{"id": "C298", "title": "Processes run in their environment", "statement": "A process that is run in an environment finds the programs of that environment first and all other variables unchanged, and the variables of pkm itself and the caller's dictionary stay as they are; this holds also when pkm is replaced by the process and that fails.", "quantifier": "all variables, environments and processes", "why_tests_cant": "all own and given variables and all outcomes of the process", "anchors": ["pkm/src/pkm/api/environments/environment.py: run_proc, exec_proc, activate"]}
{"id": "C299", "title": "The file of a new project says what was answered", "statement": "The pyproject.toml of a project that is made from the template is read back with the name, version, description, readme, python, author and license that were answered; the required python allows every release of the chosen version and no other major version; and the file of a project for an existing environment names that environment.", "quantifier": "all answers and all paths", "why_tests_cant": "all texts as answers; tests use harmless ones", "anchors": ["pkm-cli/src/pkm_templates/project/render.py: setup", "pkm-cli/src/pkm_templates/project_from_env", "pkm-cli/src/pkm_cli/api/templates/template_runner.py"]}
{"id": "C300", "title": "A hook of a build backend that fails never counts as success", "statement": "Calling a hook gives its value exactly when the backend can be imported, has the hook, and the hook returns; it counts as missing exactly when the backend lacks it; and every failure is reported as a failure of the build.", "quantifier": "all backends, hooks, arguments and temporary directories", "why_tests_cant": "all ways in which a foreign program may end", "anchors": ["pkm/src/pkm/build/external_builders.py: _exec_build_cycle_script"]}
{"id": "C301", "title": "A build asks for its requirements first and gives what the backend built", "statement": "A build installs what the project requires, then what the backend asks for, then builds, and gives the file that the backend named in the directory it was told; the missing hook is reported exactly if only metadata was asked for and the backend cannot prepare it; and an editable build asks only the hooks for editable builds.", "quantifier": "all backends, projects and directories", "why_tests_cant": "all backends and all failures in between", "anchors": ["pkm/src/pkm/build/external_builders.py: build_sdist, build_wheel"]}
{"id": "C302", "title": "A paragraph of a report is broken into lines and nothing is lost", "statement": "The lines of a paragraph have at most 80 characters and, joined by spaces, are the text; writing a paragraph always ends.", "quantifier": "all texts", "why_tests_cant": "all texts", "anchors": ["pkm-cli/src/pkm_cli/reports/report.py: Report.paragraph"]}
{"id": "C303", "title": "The lists of a report stand where they belong", "statement": "Each item of a list is printed at the place of the list, in order, with its sign or its number from 1; the text for an empty list is printed exactly if there are no items; the indentation after a list is the one before it; and the versions that match are the first three and the number of the others.", "quantifier": "all lists, also within others, and all indentations", "why_tests_cant": "all nestings", "anchors": ["pkm-cli/src/pkm_cli/reports/report.py: ReportUList, ReportOList, Report.ulist, Report.olist, Report.indent, Report.writeln", "pkm-cli/src/pkm_cli/reports/package_report.py: display"]}
{"id": "C304", "title": "A new task runs under the name with which it was made", "statement": "Making a task puts one script at the place its name says, below the tasks of the project, changes nothing that is there, and refuses to make it again; the new task is then listed, and runs under its name, with dashes or underscores. Outside of a project nothing is made.", "quantifier": "all names and all trees of tasks", "why_tests_cant": "all names, depths and neighbours", "anchors": ["pkm-cli/src/pkm_templates/task/render.py: setup", "pkm-cli/src/pkm_cli/api/tasks/tasks_executor.py: _load_task", "pkm-cli/src/pkm_cli/api/templates/template_runner.py: _render, execute"]}
{"id": "C305", "title": "A project that is made from an environment fits it", "statement": "The project's dependencies are the packages of the environment that were asked for, in order; each is written so that it is read back as a dependency on this package that the installed version satisfies, and requires-python so that the environment's interpreter satisfies it; and what the user asked for, extras and versions, is kept.", "quantifier": "all environments, versions and requests", "why_tests_cant": "all versions, including pre- and post-releases, read back by the real parser", "anchors": ["pkm-cli/src/pkm_templates/project_from_env/render.py: setup", "pkm/src/pkm/api/packages/package.py: to_dependency", "pkm/src/pkm/api/packages/site_packages.py: find_requested_packages"]}
{"id": "C306", "title": "The report about a project shows each dependency and its state", "statement": "Each dependency has one line, required ones first, that tells its requirement, the installed version or that there is none, and its group; the line is shown as it is; versions that the requirement rules out are told from others; and names of contexts are those of their classes with spaces before capitals.", "quantifier": "all dependencies, groups and installed packages", "why_tests_cant": "all requirement texts against the markup of the screen", "anchors": ["pkm-cli/src/pkm_cli/reports/project_report.py: display, _dependency_status_line", "pkm-cli/src/pkm_cli/reports/report.py: section, header, option_help", "pkm-cli/src/pkm_cli/reports/added_repositories_report.py: _context_name"]}
{"id": "C307", "title": "The environments and scripts of a zoo", "statement": "An exported script is a copy of the environment's in the zoo's directory for scripts, and nothing else changes; every zoo can take scripts; a new environment is never put over something and is found under its name; and deleting one removes its directory and nothing else.", "quantifier": "all file systems, zoos, names and scripts", "why_tests_cant": "all names, also ones with points and slashes, and all contents of the zoo", "anchors": ["pkm/src/pkm/api/environments/environments_zoo.py: create_environment, delete_environment, load_environment, export_script, export_all_scripts, load", "pkm-cli/src/pkm_templates/envzoo/render.py: setup"]}
{"id": "C308", "title": "The word after \"pkm new\" selects the template of that name", "statement": "The listed templates are the outermost directories with a render.py; the name of a listed or local template yields exactly the command made of its file; another word yields the templates whose names begin with it, or all of them.", "quantifier": "all trees of templates, working directories and words", "why_tests_cant": "all trees, orders of directory entries and names, and whatever lies in the working directory", "anchors": ["pkm-cli/src/pkm_cli/api/templates/template_runner.py: templates_in_namespace, load_template, as_command, _module", "pkm-cli/src/pkm_cli/main.py: pkm_new"]}
{"id": "C309", "title": "A project whose version was bumped has that version when it is read again", "statement": "Bumping major, minor or patch raises that number by one, sets the ones behind it to zero and keeps nothing else but the epoch; after saving, the project that is read from the file has the version that was returned; without saving the file stays; and bumping is refused exactly if the version has not three numbers or a name is missing.", "quantifier": "all versions, particles and names", "why_tests_cant": "all versions through the real printer and parser", "anchors": ["pkm/src/pkm/api/projects/project.py: bump_version", "pkm/src/pkm/api/versions/version.py: StandardVersion.bump, NamedVersion", "pkm/src/pkm/config/configclass.py: _ParsableFieldCodec"]}
{"id": "C310", "title": "The hash of a file is that of its bytes, however they are read", "statement": "Reading a stream in pieces yields exactly what it delivers until its end, for every size of the pieces and every pattern of short reads, although all pieces share one buffer; so the digest is that of the bytes one by one; and the pieces stay what they were.", "quantifier": "all streams, sizes of the buffer and patterns of reads", "why_tests_cant": "all patterns of short reads, and the aliasing of the buffer", "anchors": ["pkm/src/pkm/utils/io_streams.py: chunks", "pkm/src/pkm/utils/hashes.py: stream", "pkm/src/pkm/repositories/pypi_repository.py: publish"]}
{"id": "C311", "title": "The sizes that are shown are right", "statement": "A size is shown in the greatest unit that is not above it, with two decimals that are within half a hundredth of it, and a number below 1024; and the size of a directory is the sum of the sizes of all files below it.", "quantifier": "all sizes and directories", "why_tests_cant": "all numbers, also next to the limits of the units", "anchors": ["pkm/src/pkm/utils/files.py: numbytes_to_human, dir_size"]}
{"id": "C312", "title": "A template asks its own questions, and overwrites files only if told to", "statement": "The command of a template has the arguments of its setup function and one flag more, which has a short name exactly if none of them has it; the setup is called with the same values whether the flag is given or not; and files may be overwritten exactly if it is given.", "quantifier": "all setup functions and arguments", "why_tests_cant": "all signatures of foreign functions", "anchors": ["pkm-cli/src/pkm_cli/api/templates/template_runner.py: as_command, execute, _setup", "pkm-cli/src/pkm_cli/api/dynamic_cli/method_parser.py: command_definition_from_method"]}
{"id": "C313", "title": "A template can use another template", "statement": "A setup function that renders another template by name executes the template that the name selects for a command, in the same directory and with the same permission to overwrite.", "quantifier": "all templates, working directories and names", "why_tests_cant": "all templates; there is no test of one that uses another", "anchors": ["pkm-cli/src/pkm_cli/api/templates/template_runner.py: _TemplateExtendedBuiltins.render_template"]}
{"id": "C314", "title": "What is written behind pkm run reaches the program or the task", "statement": "pkm run executes the program, or in a project the task, that is named by the first word, with exactly the words that follow it, in the order they were given; a task outside of a project and a command without words are refused.", "quantifier": "all command lines, contexts and trees", "why_tests_cant": "the words that follow, with options, empty words and words like @name among them, in every context", "anchors": ["pkm-cli/src/pkm_cli/main.py: pkm_run", "pkm-cli/src/pkm_cli/api/dynamic_cli/command_parser.py: parse, _read_positional"]}
