{"id": "C01", "title": "Splitting a unit string loses nothing", "statement": "multi_split(s, seps, remove=None) returns non-empty parts whose concatenation is exactly s, each part being either one of the separators or a text in which no separator occurs; it returns for every string provided no separator is empty.", "quantifier": "every string and every collection of non-empty separators", "why_tests_cant": "the strings and separator sets are unbounded; losing or duplicating one character on one shape of input is invisible to samples", "anchors": ["src/unyts/helpers/multi_split.py: multi_split", "src/unyts/helpers/unit_string_tools.py: split_unit"]}
{"id": "C02", "title": "Split result does not depend on the order of the separators", "statement": "multi_split gives the same list whatever order (or repetition) the separators are supplied in, although internally they go through a hash-ordered set.", "quantifier": "every string and any two separator lists with the same members", "why_tests_cant": "hash randomisation makes the internal order differ from run to run; a test sees one order", "anchors": ["src/unyts/helpers/multi_split.py: multi_split"]}
{"id": "C03", "title": "Parentheses removal keeps the meaning", "statement": "reduce_parentheses(u) returns a parenthesis-free string denoting the same product of powers as u (for unit strings whose groups are not nested).", "quantifier": "every unit string made of names, * and / and non-nested parenthesised groups", "why_tests_cant": "all shapes and numbers of groups", "anchors": ["src/unyts/helpers/unit_string_tools.py: reduce_parentheses"]}
{"id": "C04", "title": "Unbalanced parentheses are rejected, balanced ones are not", "statement": "reduce_parentheses raises ValueError exactly when the numbers of ( and ) differ, and returns its argument unchanged when there is no parenthesis.", "quantifier": "every string", "why_tests_cant": "all strings", "anchors": ["src/unyts/helpers/unit_string_tools.py: reduce_parentheses"]}
{"id": "C05", "title": "Cancelling common factors keeps the meaning", "statement": "reduce_units(u) denotes the same product of powers as u, and never contains a factor both multiplied and divided.", "quantifier": "every unit string made of names combined by * and /", "why_tests_cant": "all multisets of factors in all orders", "anchors": ["src/unyts/helpers/unit_string_tools.py: reduce_units"]}
{"id": "C06", "title": "Base and power of a unit are read back exactly", "statement": "unit_base_power(base + str(n)) == (base, n) for every base name without digits, dots, signs or slashes and every non-zero integer n; unit_base_power(base) == (base, 1); unit_base_power(\"1/\"+base) == (base, -1).", "quantifier": "every base name and every integer exponent", "why_tests_cant": "infinitely many exponents and names", "anchors": ["src/unyts/operations.py: unit_base_power"]}
{"id": "C07", "title": "Power laws for unit names", "statement": "unit_power(b, n) names b to the n: unit_power(unit_power(b, m), n) == unit_power(b, m*n) for non-zero m; unit_power(b, 1) == b; unit_power(b, 0) is dimensionless; unit_inverse is an involution on plain powers.", "quantifier": "every base name, every pair of integer exponents", "why_tests_cant": "infinitely many exponents", "anchors": ["src/unyts/operations.py: unit_power", "src/unyts/operations.py: unit_inverse"]}
{"id": "C08", "title": "Multiplying and dividing powers of one base adds and subtracts exponents", "statement": "unit_product(b^m, b^n) denotes b^(m+n) and unit_division(b^m, b^n) denotes b^(m-n), for powers of the same base unit.", "quantifier": "every base name, every pair of exponents, every converter state", "why_tests_cant": "infinitely many exponent pairs with special cases at 0, 1 and -1", "anchors": ["src/unyts/operations.py: unit_product", "src/unyts/operations.py: unit_division"]}
{"id": "C09", "title": "Dimensionless is neutral for unit products, quotients and sums", "statement": "unit_product(u, dimensionless) == unit_product(dimensionless, u) == unit_division(u, dimensionless) == unit_addition(u, dimensionless) == u for every unit string u and every spelling of dimensionless (None, blank, empty parentheses, unitless names in any case, a ratio x/x).", "quantifier": "every unit string and every spelling of dimensionless", "why_tests_cant": "all spellings times all units", "anchors": ["src/unyts/operations.py: unit_product", "src/unyts/operations.py: unit_division", "src/unyts/operations.py: unit_addition", "src/unyts/dictionaries.py: unitless_names"]}
{"id": "C10", "title": "The network never holds a dangling or ambiguous edge", "statement": "After any sequence of unit and conversion registrations, every unit listed as directly reachable from a unit is itself registered, appears there once, and has exactly one conversion attached, the one registered first.", "quantifier": "every sequence of add_node/add_edge/set_unit/set_conversion calls from the empty or the loaded network", "why_tests_cant": "sequences are unbounded", "anchors": ["src/unyts/network.py: UDigraph", "src/unyts/network.py: add_edge", "src/unyts/units/custom.py: set_conversion"]}
{"id": "C11", "title": "The automatic reverse of a proportional conversion undoes it", "statement": "When a conversion x -> k*x with k != 0 is registered without an explicit reverse, the registered reverse is its exact inverse for every value (it is not for offset conversions).", "quantifier": "every factor and every value", "why_tests_cant": "all reals; exactness at every value", "anchors": ["src/unyts/network.py: Conversion.get_convert", "src/unyts/units/custom.py: set_conversion"]}
{"id": "C12", "title": "BFS returns a real path", "statement": "Whenever the BFS search returns a path it starts at the source, ends at the target, every step is a registered conversion and no unit is repeated.", "quantifier": "every network, source and target", "why_tests_cant": "all graphs", "anchors": ["src/unyts/searches.py: BFS"]}
{"id": "C13", "title": "BFS finds a path whenever one exists, and a shortest one", "statement": "If the target can be reached from the source the BFS search returns a path of minimum length; otherwise it returns None; and it terminates.", "quantifier": "every network, source and target", "why_tests_cant": "all graphs, including cyclic ones", "anchors": ["src/unyts/searches.py: BFS"]}
{"id": "C14", "title": "DFS returns a real path", "statement": "Whenever the DFS search returns a path it starts at the source, ends at the target and every step is a registered conversion.", "quantifier": "every network, source, target and depth limit", "why_tests_cant": "all graphs", "anchors": ["src/unyts/searches.py: DFS"]}
{"id": "C15", "title": "The descendants used for pruning are exactly the units within the generation limit", "statement": "For a simple unit, the set of descendants for g generations is exactly the set of units reachable by at most g registered conversions (plus the unit itself).", "quantifier": "every network, unit and generation limit", "why_tests_cant": "all graphs and limits", "anchors": ["src/unyts/converter.py: _get_descendants"]}
{"id": "C16", "title": "lean_BFS only returns real paths and agrees with BFS", "statement": "Any path lean_BFS returns is a real path; in a network where every conversion has a reverse, and for simple units, it returns a path whenever one exists within the generation limit, and it is a shortest one.", "quantifier": "every network, source, target and generation limit", "why_tests_cant": "all graphs and limits", "anchors": ["src/unyts/searches.py: lean_BFS"]}
{"id": "C17", "title": "Every interleaving of the hybrid search gives a BFS or lean_BFS result", "statement": "Whatever the interleaving of the two worker threads, hybrid_BFS can only return a path one of the two searches found, it returns None only when both found nothing, and its answer is a real path.", "quantifier": "every schedule of the two workers and the polling loop", "why_tests_cant": "schedules are not controllable from a test", "anchors": ["src/unyts/searches.py: hybrid_BFS", "src/unyts/searches.py: SerialRun"]}
{"id": "C18", "title": "Converting a unit to itself is the identity, always", "statement": "convert(x, u, u) == x for every value x, every unit string u (known or unknown), in every state reached by any history of API calls.", "quantifier": "every value, unit string and call history", "why_tests_cant": "histories are unbounded and memory is shared", "anchors": ["src/unyts/converter.py: convert", "src/unyts/converter.py: _get_conversion"]}
{"id": "C19", "title": "convert(None, a, b) is the conversion function", "statement": "If convert(None, a, b) returns a function f in a state, then convert(x, a, b) returns f(x) in the same state.", "quantifier": "every value, pair of units and state", "why_tests_cant": "the two code paths differ (stored function vs. stepwise application); all states", "anchors": ["src/unyts/converter.py: convert", "src/unyts/converter.py: _lambda_conversion", "src/unyts/converter.py: _apply_conversion"]}
{"id": "C20", "title": "Converting never alters the network or the settings", "statement": "convert and convertible leave the registered units, conversions, formation volume factor, density, limits and switches unchanged, whether they succeed, fail or raise.", "quantifier": "every argument and every state", "why_tests_cant": "all histories including exceptional exits", "anchors": ["src/unyts/converter.py: convert", "src/unyts/converter.py: convertible"]}
{"id": "C21", "title": "A failed conversion is reported as configured", "statement": "When no conversion is found convert raises NoConversionFoundError if raise_error is on and returns None if it is off; it never returns a number then.", "quantifier": "every argument and state", "why_tests_cant": "all states", "anchors": ["src/unyts/converter.py: convert"]}
{"id": "C22", "title": "Round trip", "statement": "convert(convert(x, a, b), b, a) == x for simple units connected in the network (exact arithmetic).", "quantifier": "every value and pair of connected simple units, in every reachable state", "why_tests_cant": "all values, all pairs, all histories", "anchors": ["src/unyts/converter.py: convert"]}
{"id": "C23", "title": "Conversion does not depend on the intermediate unit", "statement": "convert(convert(x, a, b), b, c) == convert(x, a, c) for simple units (exact arithmetic).", "quantifier": "every value and triple of connected simple units in a consistent network", "why_tests_cant": "cubic in the number of units and every value", "anchors": ["src/unyts/converter.py: convert"]}
{"id": "C24", "title": "The answer does not depend on the search algorithm", "statement": "BFS, lean_BFS, DFS and hybrid_BFS give the same converted value.", "quantifier": "every value, pair of simple units, algorithm and state", "why_tests_cant": "all graphs and all states", "anchors": ["src/unyts/searches.py: BFS", "src/unyts/searches.py: DFS", "src/unyts/searches.py: lean_BFS", "src/unyts/searches.py: hybrid_BFS", "src/unyts/converter.py: _search_network"]}
{"id": "C25", "title": "The answer does not depend on the history (cache transparency)", "statement": "convert(x, a, b) gives the same value whether the memory is empty, filled by any earlier conversions, or switched off.", "quantifier": "every history of conversions between simple units", "why_tests_cant": "histories are unbounded", "anchors": ["src/unyts/converter.py: _get_conversion", "src/unyts/network.py: UDigraph.memory"]}
{"id": "C26", "title": "A ratio is converted factor by factor", "statement": "Converting n1/d1 to n2/d2 multiplies by (n1->n2 factor) / (d1->d2 factor); products multiply.", "quantifier": "every value and every ratio of simple units", "why_tests_cant": "all combinations", "anchors": ["src/unyts/converter.py: _converter"]}
{"id": "C27", "title": "A registered conversion is used", "statement": "After set_conversion(a, b, f), convert(x, a, b) == f(x).", "quantifier": "every pair of new unit names, function, value and prior history", "why_tests_cant": "histories are unbounded", "anchors": ["src/unyts/units/custom.py: set_conversion", "src/unyts/converter.py: convert"]}
{"id": "C28", "title": "convertible answers consistently and agrees with convert", "statement": "convertible(a, b) gives the same answer when asked again, and it is True exactly when convert(1, a, b) yields a value.", "quantifier": "every pair of unit strings and every history", "why_tests_cant": "histories are unbounded", "anchors": ["src/unyts/converter.py: convertible", "src/unyts/converter.py: convert"]}
{"id": "C29", "title": "The recursion budget bounds every conversion", "statement": "Every conversion terminates: nested searches have a strictly smaller remaining budget and none is started when it is exhausted, whatever the network.", "quantifier": "every network, unit strings and limit", "why_tests_cant": "non-termination only shows on particular cyclic networks", "anchors": ["src/unyts/converter.py: _get_recursion_limit", "src/unyts/converter.py: _converter"]}
{"id": "C30", "title": "Dates, dimensionless, percentages: quick conversions", "statement": "Dimensionless to percentage multiplies by 100 and back divides by 100 (exact inverse); date to date is the identity; dimensionless to any simple unit keeps the value.", "quantifier": "every value, spelling and state", "why_tests_cant": "all spellings and states", "anchors": ["src/unyts/converter.py: _get_conversion"]}
{"id": "C31", "title": "Volume to weight goes through density", "statement": "Converting a volume unit to a weight unit multiplies by the configured density expressed in weight/volume units, and weight to volume divides by it.", "quantifier": "every value, density and pair of units", "why_tests_cant": "all densities and units", "anchors": ["src/unyts/converter.py: _density_conversion", "src/unyts/parameters.py: set_density"]}
{"id": "C32", "title": "The shipped tables are mutually consistent", "statement": "In the shipped database every pair of connected units of the same kind converts by one affine map independent of the chosen path.", "quantifier": "all units of each kind of the shipped dictionary, all paths", "why_tests_cant": "the network has thousands of edges and exponentially many paths", "anchors": ["src/unyts/dictionaries.py: _load_dictionary", "src/unyts/database.py: _load_network"]}
{"id": "C33", "title": "Different kinds of units stay disconnected", "statement": "In the shipped network no chain of conversions links two different physical kinds.", "quantifier": "all pairs of units of different kinds", "why_tests_cant": "quadratic in the number of units, all paths", "anchors": ["src/unyts/database.py: _load_network"]}
{"id": "C34", "title": "SI prefixes scale by the right power of ten", "statement": "For every SI-prefixable unit u and prefix p, convert(x, p+u, u) == x * 10^e(p) (and 10^2e, 10^3e for squared and cubed units).", "quantifier": "every prefix, every prefixable unit, every value", "why_tests_cant": "all combinations and every value", "anchors": ["src/unyts/dictionaries.py: _load_dictionary", "src/unyts/database.py: _create_factor"]}
{"id": "C35", "title": "Adding two quantities of one kind", "statement": "For quantities of the same kind, (a + b) expressed in any common unit is the sum of a and b expressed in it; addition is commutative up to unit; the result keeps the left unit.", "quantifier": "every pair of quantities with convertible proportional units", "why_tests_cant": "all values and units", "anchors": ["src/unyts/unit_class.py: Unit.__add__"]}
{"id": "C36", "title": "Subtraction is addition of the negation", "statement": "a - b == a + (-b); a - a has value zero.", "quantifier": "every pair of quantities of one kind", "why_tests_cant": "all values and units, including one-way conversions", "anchors": ["src/unyts/unit_class.py: Unit.__sub__", "src/unyts/unit_class.py: Unit.__rsub__"]}
{"id": "C37", "title": "Multiplying and dividing quantities multiplies and divides the values in a common unit", "statement": "(a*b).value equals the product of values after converting b to the unit of a; (a*b)/b == a for non-zero b.", "quantifier": "every pair of quantities", "why_tests_cant": "all values and units", "anchors": ["src/unyts/unit_class.py: Unit.__mul__", "src/unyts/unit_class.py: Unit.__truediv__"]}
{"id": "C38", "title": "Comparison of quantities is a total order independent of the units used", "statement": "For quantities of the same class exactly one of <, ==, > holds, <= and >= are their negations, and the answer is unchanged when an operand is first converted to another unit.", "quantifier": "every pair of quantities of one class", "why_tests_cant": "all values and units", "anchors": ["src/unyts/unit_class.py: Unit.__lt__", "src/unyts/unit_class.py: Unit.__eq__", "src/unyts/unit_class.py: Unit.__gt__"]}
{"id": "C39", "title": "Percentages are stored as fractions", "statement": "Percentage(x).value == x/100, converting to dimensionless gives x/100, converting back gives x percent; p + q, -p and abs(p) are percentages of the expected amount.", "quantifier": "every value", "why_tests_cant": "all values", "anchors": ["src/unyts/units/unitless.py: Percentage", "src/unyts/units/unitless.py: Dimensionless", "src/unyts/unit_class.py: Unit.__add__"]}
{"id": "C40", "title": "units() keeps value and unit", "statement": "units(v, u) returns a quantity whose unit is u (stripped) and whose value is v (v/100 for percentages), of the first kind listing u, or a user unit when none does.", "quantifier": "every value and every unit string", "why_tests_cant": "all strings", "anchors": ["src/unyts/units/define.py: units", "src/unyts/units/custom.py: UserUnits"]}
{"id": "C41", "title": "Settings can only take legal values", "statement": "After any sequence of calls the search algorithm is one of the four implemented ones, and an unknown name is rejected without changing anything.", "quantifier": "every sequence of set_algorithm/recursion_limit/... calls", "why_tests_cant": "histories are unbounded", "anchors": ["src/unyts/parameters.py: UnytsParameters.set_algorithm", "src/unyts/parameters.py: set_algorithm"]}
{"id": "C42", "title": "Switches: on/off/toggle semantics", "statement": "A switch called with None toggles, with any off word in any case and spacing turns off, with any other string turns on, otherwise takes the truth value; only that setting changes.", "quantifier": "every switch argument and state", "why_tests_cant": "all strings", "anchors": ["src/unyts/parameters.py: UnytsParameters.print_path", "src/unyts/parameters.py: UnytsParameters.cache", "src/unyts/parameters.py: UnytsParameters.raise_error", "src/unyts/parameters.py: UnytsParameters.verbose", "src/unyts/parameters.py: UnytsParameters.reload_next_time"]}
{"id": "C43", "title": "Saved settings are read back", "statement": "After save_params, a new session loads exactly the saved settings.", "quantifier": "every settings value", "why_tests_cant": "all settings", "anchors": ["src/unyts/parameters.py: UnytsParameters.save_params", "src/unyts/parameters.py: UnytsParameters.load_params"]}
{"id": "C44", "title": "A crash while saving the settings never prevents the next start", "statement": "If the process dies at any point while settings are being written, the next session starts with either the old or the new settings.", "quantifier": "every crash point of every save", "why_tests_cant": "crash points cannot be hit by tests", "anchors": ["src/unyts/parameters.py: UnytsParameters.save_params", "src/unyts/parameters.py: UnytsParameters.load_params"]}
{"id": "C45", "title": "The user folder is the one set", "statement": "After set_user_folder(path) with an existing folder, files are written inside that folder.", "quantifier": "every path string", "why_tests_cant": "all strings", "anchors": ["src/unyts/parameters.py: UnytsParameters.set_user_folder"]}
{"id": "C46", "title": "Invalid input is rejected before anything happens", "statement": "convert rejects a missing target unit, a non-string unit or a non-numeric value with TypeError/ValueError without touching memory.", "quantifier": "every malformed argument and state", "why_tests_cant": "all states", "anchors": ["src/unyts/converter.py: _clean_input"]}
{"id": "C47", "title": "Cleaning input is idempotent and harmless", "statement": "Surrounding blanks, parentheses and quotes do not change the result of convert.", "quantifier": "every unit string and padding", "why_tests_cant": "all strings", "anchors": ["src/unyts/converter.py: _clean_input"]}
{"id": "C48", "title": "Changing a parameter takes effect", "statement": "After set_fvf or set_density, conversions use the new value whatever was converted before.", "quantifier": "every history and every pair of units", "why_tests_cant": "histories are unbounded", "anchors": ["src/unyts/database.py: set_fvf", "src/unyts/network.py: UDigraph.set_fvf", "src/unyts/parameters.py: set_density", "src/unyts/converter.py: _density_conversion"]}
{"id": "C49", "title": "Order is preserved by conversion", "statement": "For proportional conversions with positive factor x < y implies convert(x,a,b) < convert(y,a,b).", "quantifier": "every pair of values and of units of the shipped tables", "why_tests_cant": "all values and units", "anchors": ["src/unyts/converter.py: convert", "src/unyts/database.py: _load_network"]}
{"id": "C50", "title": "Every start of a session has the same tables", "statement": "Whatever settings were changed, caches deleted, folders chosen and memories saved in earlier sessions, and wherever an earlier process died, importing unyts gives exactly the dictionary and network that the code builds: from the cache or by building again; it never starts with wrong tables, and damaged or missing cache files are rebuilt.", "quantifier": "every history of sessions from a new installation, every call, every crash point, every later damage of a cache file", "why_tests_cant": "histories and crash points are unbounded; tests exercise one start on one disk", "anchors": ["src/unyts/database.py: start-up 785-829", "src/unyts/database.py: _rebuild_units", "src/unyts/dictionaries.py: cache loading 585-603"]}
{"id": "C51", "title": "convert_for_SimPandas converts or returns the value", "statement": "convert_for_SimPandas(x, a, b) returns what convert returns when the units are convertible and x itself otherwise.", "quantifier": "every value, every pair of unit strings and every history", "why_tests_cant": "histories and unit strings are unbounded", "anchors": ["src/unyts/converter.py: convert_for_SimPandas", "src/unyts/converter.py: convertible"]}
{"id": "C52", "title": "Conversions follow the definitions of the units", "statement": "For every pair of units related by a legal definition (1 inch = 0.0254 m, 1 lb = 0.45359237 kg, 1 day = 24 h, 0 C = 273.15 K, ...), convert(x, a, b) is the value the definition gives, exactly, for every x.", "quantifier": "every value, every pair of the table of definitions, every search algorithm, every history of calls", "why_tests_cant": "values and histories are unbounded and the answer depends on which of many paths the search takes", "anchors": ["src/unyts/dictionaries.py: _load_dictionary", "src/unyts/database.py: _load_network", "src/unyts/converter.py: convert"]}
{"id": "C53", "title": "Units of the same kind convert into one another", "statement": "Any two units listed under the same kind in the dictionary are registered in the network and convert() between them returns a number.", "quantifier": "every kind, every pair of its units, every value, every history of conversions", "why_tests_cant": "quadratic in 2600 units, and a search may be cut by its generations or by memory", "anchors": ["src/unyts/dictionaries.py: _load_dictionary", "src/unyts/database.py: _load_network", "src/unyts/converter.py: convert"]}
{"id": "C54", "title": "The formation volume factor that is set is the one in use", "statement": "set_fvf(x) either refuses x (zero, negative, not a number) or makes x the factor that get_fvf and the conversions use, in this session and, once saved, in the next.", "quantifier": "every argument, every state, every next session", "why_tests_cant": "all numbers and strings, and the effect spans sessions", "anchors": ["src/unyts/database.py: set_fvf", "src/unyts/database.py: get_fvf", "src/unyts/network.py: UDigraph.set_fvf"]}
{"id": "C55", "title": "set_density takes effect or changes nothing", "statement": "set_density(x, units) with a number and known density units makes get_density return that density and keeps it on disk; with anything else it raises and leaves settings and files as they were.", "quantifier": "every value, unit string and state", "why_tests_cant": "all values and unit strings, and the state of the files after a failure", "anchors": ["src/unyts/parameters.py: set_density", "src/unyts/parameters.py: get_density"]}
{"id": "C56", "title": "The limits stay within what Python allows", "statement": "After any sequence of calls the recursion limit is at most Python's own limit minus 15 and is what the last accepted recursion_limit call returned; refused arguments change nothing.", "quantifier": "every sequence of calls and every argument", "why_tests_cant": "histories are unbounded", "anchors": ["src/unyts/parameters.py: UnytsParameters.recursion_limit", "src/unyts/parameters.py: UnytsParameters.generations_limit"]}
{"id": "C57", "title": "delete_cache removes the cache and nothing else", "statement": "delete_cache() removes the five cache files of the user folder if they are there and touches no other file and no setting.", "quantifier": "every disk content and folder", "why_tests_cant": "all disk contents", "anchors": ["src/unyts/database.py: delete_cache"]}
{"id": "C58", "title": "A saved memory of searches is there in the next session", "statement": "save() writes the memory of searches to a file that the next session loads at its start, and load() adds it to the current memory; save(path) and load(path) do so with a file of the user's choice.", "quantifier": "every memory, every history, every path", "why_tests_cant": "needs two processes and all disks", "anchors": ["src/unyts/__init__.py: save, load", "src/unyts/network.py: save_memory, load_memory"]}
{"id": "C59", "title": "Integer division and remainder of quantities", "statement": "a % b is what is left of a after taking b away the whole number of times it fits, whatever the two units: it has a's kind and unit, is smaller than b and of b's sign; a // b is that number of times; (a // b) * b + a % b is a. Dividing by an amount that is zero raises ZeroDivisionError. A quantity integer-divided by a number depends on the amount only.", "quantifier": "every pair of quantities of one kind in any of its units, every number, every moment of a session", "why_tests_cant": "all values, unit pairs and histories; wrong only near multiples, for negative divisors or for some units", "anchors": ["src/unyts/unit_class.py: Unit.__floordiv__, Unit.__mod__"]}
{"id": "C60", "title": "Rounding and approximate equality", "statement": "round(q, n) keeps kind and unit and rounds the value to the nearest multiple of 10^-n (half to even); it is idempotent, keeps the order, differs by at most half a unit of the last decimal; round(q) is round(q, 0); q.round(n) is round(q, n); a.equals(b, n) tells whether a and b, in a's unit, agree when rounded to n decimals, is true for equal quantities and symmetric.", "quantifier": "every quantity, unit, number of decimals and moment of a session", "why_tests_cant": "all values (ties, negatives), unit pairs and precisions", "anchors": ["src/unyts/unit_class.py: Unit.__round__, Unit.round, Unit.equals"]}
{"id": "C61", "title": "Integer powers of quantities", "statement": "q ** 1 is q; q ** 2 is q * q; q ** n has the n-th power of q's value; q ** -n has its inverse, and raises for zero; q ** 0 is dimensionless one.", "quantifier": "every quantity, every integer exponent, every moment of a session", "why_tests_cant": "all values, exponents and unit names", "anchors": ["src/unyts/unit_class.py: Unit.__pow__", "src/unyts/operations.py: unit_power"]}
{"id": "C62", "title": "is_unit and valid_unit recognise exactly the units", "statement": "is_unit(x) is true exactly when x, without the spaces around it, is a name of the dictionary or a chain of names joined by / and *; valid_unit(x) when it is a valid name. Every shipped name is recognised by both at all times, products and quotients of units are units, and a name once recognised (also one the user has made) remains so.", "quantifier": "every text, every moment of a session", "why_tests_cant": "all texts and histories", "anchors": ["src/unyts/helpers/is_unit.py: is_unit", "src/unyts/unit_class.py: valid_unit"]}
{"id": "C63", "title": "Constructors take exactly the units of their class", "statement": "K(value, unit) for a class of quantities is a quantity of that value and unit if the unit is one of the class and raises WrongUnitsError otherwise; Unit(value, unit) does so for all valid names; UserUnits takes any name; no failed construction changes the session; a value that is no number raises WrongValueError.", "quantifier": "every class, value, unit and moment of a session", "why_tests_cant": "34 classes times thousands of names, and all texts that are no names", "anchors": ["src/unyts/unit_class.py: Unit.__init__, check_unit, check_value", "src/unyts/units/*.py: __init__"]}
{"id": "C64", "title": "Numbers written by people are read as written", "statement": "to_number reads a text of digits with an optional sign, groups of three digits and decimals, with blanks around it, as exactly that number: a whole one as the int of any size, one with decimals as the float of the same digits; with automatic separators or with any two characters given; brackets mean negative; a lone bracket raises; exponents are accepted; a number is returned as it is; other types raise TypeError.", "quantifier": "every digit string of any length, sign, number of groups, separator and blanks", "why_tests_cant": "all texts and separators", "anchors": ["src/unyts/helpers/caster.py: to_number, caster"]}
{"id": "C65", "title": "The form converts what is typed in it", "statement": "With a number and a unit in the boxes of one side (each in its box or in the other's, with blanks around) and a unit in the boxes of the other side, pressing convert makes that conversion once and shows its result in the value box of the other side, the number and the units in their own boxes; a number only in the side 'to' is converted the other way; whatever is in the boxes, a press ends, and either clears them without converting or makes one conversion of what is then shown.", "quantifier": "every content of the four boxes, every converter state, every history of the window", "why_tests_cant": "all texts and histories; needs a display", "anchors": ["src/unyts/gui.py: UnytsApp._get_from, _get_to, _calculate, _rcalculate, _display_path"]}
{"id": "C66", "title": "Messages stay and long paths are shown in full", "statement": "The message of a failed conversion stays until the next action, and every part of a conversion path that does not fit is shown in turn, whenever the timers fire; at most one timer runs; what a timer shows is a part of the last path.", "quantifier": "every history of actions and every order of timers", "why_tests_cant": "depends on when timers fire", "anchors": ["src/unyts/gui.py: UnytsApp._display_path, _partial_msg, start_gui.print_path"]}
{"id": "C70", "title": "The conversion path told is the reason of the number", "statement": "After a successful conversion between two registered units the path told is a chain of registered conversions from the first to the second without repetition, whose conversions applied one after the other give the number returned; its text is the names of the units with arrows, from which they can be read back.", "quantifier": "every history of a session, every pair of units, value and search algorithm", "why_tests_cant": "all histories and networks, remembered paths included", "anchors": ["src/unyts/searches.py: print_path", "src/unyts/converter.py: convert, _get_conversion"]}
{"id": "C69", "title": "The ready made constants are one of their unit", "statement": "Importing unyts.unitary at any moment of a session succeeds and changes nothing of the session; every name it offers is a quantity of value one, in the documented unit and of the documented kind.", "quantifier": "every moment of every session, every constant", "why_tests_cant": "depends on the history of the session (units named by the user)", "anchors": ["src/unyts/unitary.py", "src/unyts/units/define.py: units"]}
{"id": "C71", "title": "Arrays are converted element by element", "statement": "Converting a list, tuple, array, Series or DataFrame gives, for any units and any history, the array of the conversions of its elements, leaves the session as converting one of them does, and fails exactly when there is no conversion for a number; convert_for_SimPandas keeps the container.", "quantifier": "every length and content, units (composite ones included), history, every user function working on elements", "why_tests_cant": "all lengths, units and histories", "anchors": ["src/unyts/converter.py: convert, _clean_input, convert_for_SimPandas"]}
{"id": "C67", "title": "The dialogs and the menus of the window", "statement": "The dialogs Set FVF and Set density ask until the answer is a positive number, alone or followed by a unit it can be converted from; that number, converted, is then the setting, saved on disk, and the message says so; refused answers and a cancelled dialog change nothing. Whatever is clicked, the marks of the menus say what is set, and choosing another search algorithm makes the next conversion search again.", "quantifier": "every sequence of answers, every state, every sequence of clicks", "why_tests_cant": "all texts typed and all histories of the menus", "anchors": ["src/unyts/gui.py: start_gui._set_fvf, _set_density, _set_bfs, _set_par_th and alike"]}
{"id": "C68", "title": "The prompts of the keyboard", "statement": "set_fvf(), set_density() and the conversions that need a factor or a density ask until they get an answer they understand (a positive number; a number, with a unit or without), change nothing while they wait, take the first such answer as if it had been given as an argument, and ask once only.", "quantifier": "every sequence of answers, every state", "why_tests_cant": "all texts typed", "anchors": ["src/unyts/parameters.py: set_density, _get_density", "src/unyts/database.py: set_fvf", "src/unyts/network.py: UDigraph.get_fvf"]}
{"id": "C72", "title": "Quantities with numbers, inverses, tuples", "statement": "Adding, subtracting, multiplying or dividing a quantity by a plain number (and - and abs) acts on its number only, keeping kind and unit; a number over a quantity is in the inverse unit (over seconds, a frequency), and multiplied by a quantity of the kind of the divisor it gives the right ratio; a sum of different kinds is a tuple with all the quantities, in their units; a quantity is true unless it is zero.", "quantifier": "all kinds, all units listed, all numbers, every moment of every session", "why_tests_cant": "infinitely many numbers, units and histories", "anchors": ["src/unyts/unit_class.py: Unit.__add__, __sub__, __rsub__, __mul__, __matmul__, __rtruediv__, __rfloordiv__, __neg__, __abs__, __bool__", "src/unyts/units/unitless.py: Dimensionless, Percentage"]}
{"id": "C73", "title": "The laws between kinds", "statement": "A power times a time is an energy (Wh), an energy over a time a power (Watt) and over a power a time (hour); voltage, current, resistance, power, capacitance and charge multiply and divide by Ohm's law and the definitions of power and charge, in either order of the factors; the number is that of the plain product converted to that unit. Quantities of other kinds multiply and divide by the product or quotient of their numbers and units.", "quantifier": "every pair of quantities, every state of the session", "why_tests_cant": "all pairs of kinds, units and values, every history", "anchors": ["src/unyts/units/energy.py", "src/unyts/units/time.py: Time.__mul__", "src/unyts/unit_class.py: Unit.__mul__, Unit.__truediv__, Unit.to"]}
{"id": "C74", "title": "The window keeps the memory of searches", "statement": "The conversions found while the window was open are saved when it is closed (unless the cache is off), and the next window opens with them, however many sessions follow one another; opening the window does not destroy files; the dialogs Export memory and Import memory give back what was exported, a cancelled dialog changes nothing, and a folder that does not exist is refused.", "quantifier": "every history of window sessions, every memory, every answer of the dialogs", "why_tests_cant": "all histories of sessions and disks", "anchors": ["src/unyts/gui.py: start_gui, close_gui, export_memory, load_memory_file, set_cache_folder", "src/unyts/network.py: UDigraph.save_memory, load_memory", "src/unyts/database.py: delete_cache"]}
{"id": "C75", "title": "The time told by the window", "statement": "The window tells the time that a conversion took, in milliseconds, seconds, minutes and seconds or hours and minutes, to the last digit shown.", "quantifier": "every duration", "why_tests_cant": "all durations", "anchors": ["src/unyts/gui.py: UnytsApp._calculation_time"]}
{"id": "C76", "title": "Dates", "statement": "A Date has the year, month and day it was made from; adding or subtracting a Time moves it by exactly that time, across months, years and leap days, and subtracting what was added gives the date back; the difference of two dates, their comparison and their text are those of the calendar.", "quantifier": "every date, every Time, every unit of time", "why_tests_cant": "all dates of the calendar and all durations", "anchors": ["src/unyts/units/date.py: Date.__init__, __add__, __sub__, year, month, day", "src/unyts/unit_class.py: Unit.__repr__, __lt__, __eq__"]}
{"id": "C77", "title": "Quantities with dimensionless numbers and percentages", "statement": "Multiplying a quantity by a dimensionless number or a percentage, on either side, or dividing it by one, gives that multiple of it, in its unit and in any other unit of its kind (10 percent of 6 feet is 0.6 feet); adding or subtracting a dimensionless number gives the same in either order; raising a pure number to a quantity with dimension is an error.", "quantifier": "every quantity of a measured kind, every dimensionless number and percentage, every moment of a session", "why_tests_cant": "all units, values and histories of a session", "anchors": ["src/unyts/unit_class.py: Unit.__mul__, __truediv__, __add__, __sub__, __pow__", "src/unyts/units/unitless.py: Dimensionless, Percentage"]}
{"id": "C78", "title": "Units defined by the user", "statement": "After set_conversion(a, b, f) a quantity in the unit a is converted to b with f, at any later moment, and is added to, subtracted from and compared with quantities in b accordingly, whatever class those are of; a quantity in a known unit can be expressed in the user's unit.", "quantifier": "every pair of names one of which is new, every conversion function, every value, every history of conversions after the registration", "why_tests_cant": "all functions, names and later histories", "anchors": ["src/unyts/units/custom.py: UserUnits, set_conversion", "src/unyts/unit_class.py: Unit.convert, __add__, __sub__, __eq__ and alike"]}
{"id": "C79", "title": "Quantities of arrays", "statement": "A quantity made of a list has as many items as the list and its i-th item is the quantity of the i-th element (negative indices count from the end, others raise IndexError); converting it, adding or subtracting quantities (element by element, or a single quantity or an array of one element with each), pure numbers and percentages included, +, -, *, /, //, % and @ with a number on its right, / and // with one on its left, raising it to a power, rounding it, negating it, comparing it, and multiplying or dividing it by another quantity (an array of the same length, of one element or a single number; where there is a law between the kinds, in the unit of the law) give, item by item, what the same operation gives on the items; quantities of different lengths are refused.", "quantifier": "every list of values of every length, every unit of a kind, every index, every history of conversions over arrays", "why_tests_cant": "all lengths, values, units and histories", "anchors": ["src/unyts/unit_class.py: Unit.__getitem__, __len__, __iter__, __add__, __sub__, __mul__, __truediv__, __floordiv__, __mod__, __neg__, __abs__, __lt__ and alike, convert, check_value"]}
{"id": "C80", "title": "Numbers that round", "statement": "With numbers whose every operation rounds (floats: relative error at most 2^-53 per operation and per literal, no overflow or underflow), converting between two units of one kind returns a number within one part in 10^11 of what the same conversion returns with exact numbers, whatever path the search finds (between temperatures, whose conversions add and subtract: within one part in 10^11 of that answer and of 1600 degrees together); the definitions of the units hold within the same part; converting there and back returns the number within two parts in 10^11; no division by a factor that was rounded to zero; a product or ratio of such units is converted within one part in 10^11 per factor of the exact quotient of the sizes; and rounding never makes a conversion invert the order of two numbers (API degrees apart).", "quantifier": "every arithmetic with such a rounding, every pair of units of a kind without offsets and contradictions or of temperatures, every value, every history of calls", "why_tests_cant": "every rounding, value, pair of units, path and history", "anchors": ["src/unyts/database.py: _load_network (the conversions it registers)", "src/unyts/network.py: Conversion.convert, reverse", "src/unyts/converter.py: convert"]}
{"id": "C81", "title": "The network used directly", "statement": "units_network.convert(value, a, b) applies the first conversion registered from a to b and nothing else: the user's function in one direction and the division by its value at 1 in the other; NameError for a unit that is not registered and ValueError without a direct conversion, even when a chain of conversions leads there; what convert() of the package returns is always a chain of such direct conversions along a path without repeated units; in the shipped network a direct conversion never contradicts convert() within one kind, and every SI prefix is one, with its power of ten; Conversion objects reverse what they convert exactly when their function is proportional; list_nodes gives each registered name once; and str(units_network) gives a text (refuted: it raises AttributeError).", "quantifier": "every sequence of registrations, value, pair of units, history of calls and algorithm", "why_tests_cant": "every network, function, history and path", "anchors": ["src/unyts/network.py: UDigraph.convert, conversion, list_nodes, __str__; Conversion.convert, reverse, get_convert"]}
{"id": "C82", "title": "Quantities kept in a program", "statement": "No operator, conversion, constructor or comparison, whether it succeeds or raises, changes a quantity that there already is; operators, conversions and constructors given a list make a new quantity whose array is shared with no other; a quantity shares its array with another only when one was made from the other by a constructor (which takes the number over without converting it), both from one array of the user's, one by converting a unitless quantity, or by assigning values; q.values[n] = v changes that element of q and of the quantities sharing its array and nothing else, and an index outside raises IndexError and changes nothing; q.units = x changes the unit and nothing else, converts nothing and refuses nothing, and with a unit of another kind every operator on q raises WrongUnitsError; q.values = p.values changes the value of q only and shares p's array; the text of a quantity shows its number (a percentage: the number that it was made of) and its unit, so equal texts mean the same number's text and the same unit.", "quantifier": "every program of any length that makes, converts, combines, assigns and writes, every array of every length, every index, every text as a unit", "why_tests_cant": "all interleavings of making, sharing and writing, of any length", "anchors": ["src/unyts/unit_class.py: Unit.__call__, __str__, __repr__, units, values, get_unit, get_value, check_value, convert", "src/unyts/units/unitless.py: Dimensionless.convert, Percentage.__init__, __str__"]}
{"id": "C83", "title": "Values assigned", "statement": "After q.values = x for a list, a tuple or an array x, q behaves as the quantity that its constructor makes of x and q's unit: the same items, the same length, the same conversions, sums, multiples and comparisons.", "quantifier": "every list of numbers, every unit of a kind, every history of conversions, every other quantity", "why_tests_cant": "all lists, units, other operands and histories", "anchors": ["src/unyts/unit_class.py: Unit.values setter, check_value, __add__, __sub__, __mul__, __neg__, __abs__, __getitem__, __iter__, __lt__ and alike", "src/unyts/converter.py: convert"]}
