# Regenerates MANIFEST.json from the claims below:  python3 tools/manifest.py
import json, os
C = []
def c(prop, status, theorems, note): C.append(dict(property=prop, status=status, theorems=theorems, note=note))
c('C01','proved',['C01_multi_split_lossless','C01_multi_split_leftmost_longest','C01_multi_split_remove','C01_empty_separator_diverges'],'all strings, all sets of non-empty separators; the empty separator provably diverges')
c('C02','proved',['C02_multi_split_order_independent'],'any enumeration of the separator set')
c('C03','partial',['C03_reduce_parentheses_meaning_partial','C03_reduce_parentheses_refuted'],'false in general (the inversion flag is never reset after a divided group); proved for the exact class of well placed groups')
c('C04','proved',['C04_parentheses_value_error','C04_no_parentheses_unchanged','C04_balanced_accepted_refuted'],'ValueError iff unbalanced, identity without parentheses; a balanced string ending in "/" raises IndexError instead')
c('C05','partial',['C05_reduce_units_meaning_partial','C05_reduce_units_reduced','C05_reduce_units_refuted'],'false in general (one divisor can cancel two factors); proved when no name occurs more than twice; reducedness proved for all')
c('C10','proved',['C10_no_dangling_or_ambiguous_edge','C10_first_registration_wins','C10_set_conversion_total','C10_clean_network_refuted'],'every sequence of registrations from the empty network; the clean-up run at import provably breaks it')
c('C11','proved',['C11_auto_reverse_exact_iff_proportional','C11_set_conversion_registers_both'],'exact iff the conversion is x -> k*x with k non zero (exact rationals)')
c('C12','proved',['C12_BFS_returns_real_paths'],'every network')
c('C13','proved',['C13_BFS_complete_and_shortest','C13_BFS_terminates'],'every network without dangling destinations')
c('C14','proved',['C14_DFS_returns_real_paths','C14_DFS_terminates','C14_DFS_complete_within_depth'],'every network, depth limit')
c('C15','proved',['C15_descendants_exact','C15_descendants_of_a_pair','C15_nesting_bound','C15_redeclared_unit_refuted'],'for networks without repeated names; a redeclared unit provably loses its descendants')
c('C16','proved',['C16_lean_BFS_returns_real_paths','C16_lean_BFS_terminates','C16_lean_BFS_complete_and_shortest','C16_one_way_refuted'],'symmetric networks for completeness; refuted for one-way edges')
c('C17','proved',['C17_hybrid_every_schedule','C17_hybrid_returns','C17_hybrid_hangs','C17_serial'],'every schedule; a schedule on which the poll loop never ends is exhibited when one worker raises')
c('C18','partial',['C18_identity_partial','C18_identity_without_cache_partial','C18_recursion_limit_refuted'],'every history in which the settings stay ordinary; refuted after a conversion attempted with recursion_limit(0), whose failure is remembered')
c('C19','proved',['C19_function_and_value'],'every pair of strings, every session')
c('C20','proved',['C20_conversions_change_nothing_else'],'every sequence of conversions')
c('C21','partial',['C21_none_only_without_raise','C21_unconnected_reported','C21_connected_converted','C21_number_has_a_reason','C21_other_exceptions_refuted','C21_quantity','C21_exceptions','C21_silent'],'simple units: proved; for composite units other exceptions escape (refuted); for all units, settings and histories: the exceptions that can escape, and NoConversionFoundError only when errors are to be raised')
c('C22','proved',['C22_round_trip'],'consistent networks, exact arithmetic')
c('C23','proved',['C23_conversion_keeps_the_quantity','C23_intermediate_unit'],'consistent networks, exact arithmetic')
c('C24','proved',['C24_same_value_whatever_the_algorithm','C24_lean_BFS_gives_a_value'],'consistent networks, exact arithmetic')
c('C25','proved',['C25_memory_transparent','C25_history_transparent'],'simple units, all histories of conversions')
c('C28','partial',['C28_convertible_agrees_with_convert','C28_convertible_is_stable','C28_composite_refuted','C28_exceptions'],'proved for simple units; refuted for composite units, where the answer depends on earlier calls')
c('C30','proved',['C30_date_to_date','C30_dimensionless_to_percent','C30_percent_to_dimensionless','C30_dimensionless_to_any_unit','C30_percent_round_trip'],'all values, all sessions')
c('C46','proved',['C46_rejected_untouched','C46_cleaning_touches_nothing','C46_index_error_refuted'],'all arguments; the empty-after-cleaning name raises IndexError (refuted part)')
c('C47','proved',['C47_padding_ignored','C47_cleaning_idempotent','C47_nested_quotes_refuted'],'padding of ordinary names; nested quotes keep inner blanks (refuted)')
c('C48','partial',['C48_fvf_takes_effect_partial','C48_ratio_refuted'],'the formation volume factor takes effect for simple units; refuted for ratios, whose factor is remembered')
c('C26','partial',['C26_factor_by_factor','C26_composite_keeps_the_quantity','C26_shipped_partial','C26_leftover_refuted','C26_temperature_refuted'],'products and ratios with the same pattern of signs, any number of factors; for the shipped database the answer exists and is the exact quotient of the sizes; refuted when the patterns differ (the extra units are ignored) and for temperatures in a denominator')
c('C27','partial',['C27_registered_conversion_used_partial','C27_reverse_used_partial','C27_lean_BFS_first_partial','C27_refuted'],'proved when one unit is new and the pair was not tried before (BFS), and for new units before the first search (lean_BFS); refuted otherwise')
c('C29','proved',['C29_conversion_terminates','C29_budget_decreases'],'the recursive equation of the engine has exactly one total solution, for every network, strings and limits')
c('C31','partial',['C31_volume_to_weight','C31_weight_is_volume_times_density','C31_weight_to_volume_refuted','C31_cancelled_refuted'],'volume to weight proved; weight to volume never gives an answer')
c('C51','partial',['C51_simple_units_partial','C51_composite_refuted'],'simple units proved; composite units are returned unconverted')
c('C06','proved',['C06_power_read_back','C06_base_alone','C06_inverse','C06_denotes'],"Every base name without digits, signs, dots or slashes (blanks, '*', '^', parentheses allowed), every integer; the decimal writing str(n) and int() are modelled and proved inverse. Python's limit on the number of digits of int() is not modelled. C06_other_names_refuted: superscripts and 'J/s' raise, 'm3/s' is read as (m/s)^3 and 'm3/hr' as (m/hr)^-3.")
c('C07','proved',['C07_names_the_power','C07_power_of_power','C07_one_and_zero','C07_inverse'],"For base names that are not unitless. C07_elsewhere_refuted: powers of a zeroth power, inverse of 'm/s2'.")
c('C08','partial',['C08_product_adds_exponents','C08_quotient_subtracts_exponents_partial','C08_nesting_is_enough'],"Products: every pair of integer exponents, after any history of conversions, when the converter does not relate different powers of the base. Quotients: except b^-1 / b^n with n <> -1, where C08_quotient_of_inverse_refuted proves that the code always answers b^(1+n). C08_fractional_exponents_refuted: 'm1.5' times itself is 'm2'.")
c('C09','partial',['C09_product_neutral','C09_quotient_neutral','C09_sum_neutral_partial','C09_no_unit_closed'],"Products and quotients: every unit string, every spelling, the shipped list of unitless names. Sums: every spelling but the ratio x/x; C09_elsewhere_refuted: 'm' + 's/s' is 'm+s/s'.")
c('C32','partial',['C32_one_scale_partial','C32_refuted'],"All 2600 units of the shipped network, all paths of any length, all algorithms and histories: one scale explains every answer, except through the 16 disagreeing conversions listed in ShippedSpec (kinds Volume, Pressure, Density, PressureGradient), where it is refuted: gauge pressures. Numbers are exact rationals.")
c('C33','partial',['C33_kinds_apart_partial','C33_no_number_partial','C33_quantity_partial','C33_refuted'],"Names and quantities (.to raises WrongUnitsError). All pairs of kinds but the seven of 'merged' in ShippedSpec; refuted for those: Celsius converts to Farad because both own 'F'.")
c('C34','partial',['C34_prefixes_partial','C34_refuted'],"26 prefixes x 36 prefixable units, both directions, every value, BFS and lean_BFS; refuted for K on squared and cubed units (Km2 is 1000 m2).")
c('C49','partial',['C49_order_preserved_partial','C49_not_linked_to_API','C49_refuted'],"Every pair of registered units no path of which goes through API degrees, every positive volume factor; refuted for API degrees.")
c('C52','partial',['C52_definitions_partial','C52_definitions_returned_partial','C52_refuted'],"The table of definitions of ShippedSpec (57 pairs): any number returned is the defined one; one is returned for the whole kinds. Refuted for light year, British gill, kilogram mass.")
c('C53','partial',['C53_same_kind_number_partial','C53_registered','C53_refuted'],"22 kinds listed in whole_kinds, with BFS or lean_BFS and at least 12 generations; every listed unit but the accelerations is registered; refuted for RPM/Hz, centipoise/Poise, kilogram force/Newton.")
c('C35','partial',['C35_sum_partial','C35_returned_partial','C35_commutative_partial','C35_associative_partial','C35_expressed','C35_refuted'],"Every pair of quantities of a measured kind (whole_kinds without the contradictory Volume, Pressure, Density, PressureGradient), every unit of the kind, all moments of a session of the shipped database; other proportional kinds: if a sum is returned it is right. Refuted for temperatures: 0 Celsius + 32 Fahrenheit is not 32 Fahrenheit + 0 Celsius.")
c('C36','partial',['C36_difference_partial','C36_negation_partial','C36_zero_partial','C36_undo_partial','C36_refuted'],"Same kinds as C35 (temperatures included for a - a = 0 and a + b - b = a); a - b = a + (-b) refuted for temperatures.")
c('C37','partial',['C37_product_partial','C37_multiple_partial','C37_ratio_partial','C37_divided_partial','C37_refuted','C37_refuted_inverse','C37_refuted_ounce','C37_cross_product_partial','C37_cross_quotient_partial'],"Products and quotients of two kinds without a law between them: the product (quotient) of the numbers in the product (quotient) of the units, for the kinds with a squared kind, units written in letters whose combined name is in no list. Products of quantities of the kinds that have a squared kind, units written in letters (but s, rd, YD...); multiples of quantities for all measured kinds. Quotients a / b of one kind for the same kinds: the ratio of the amounts; quotients by a number for the units first listed under their kind. Refuted: seconds times seconds raises NameError; a dimensionless number over a quantity raises; half of some ounces of volume is no volume.")
c('C38','partial',['C38_compare_partial','C38_total_order_partial','C38_converted_partial','C38_refuted_user','C38_refuted_bare'],"Every pair of quantities of a measured kind, temperatures included. Refuted for user units (compared as bare numbers) and the nameless dimensionless (AttributeError).")
c('C39','partial',['C39_value','C39_percent','C39_fraction','C39_arithmetic_partial','C39_refuted'],"Value, conversions and arithmetic with numbers proved for every value and spelling; p + q refuted: it is a hundredth of the right amount.")
c('C40','partial',['C40_listed_partial','C40_new_partial','C40_refuted','C40_refuted_backslash','C40_refuted_data'],"Every simple (not composite) name but the uncertain ones: the first kind that lists it; new names become user units. Refuted for names of kinds without a class, dates, explicit names, doubled backslashes, data units named as user units.")
c('C41','proved',['C41_always_legal','C41_refused','C41_taken'],"Any sequence of any of the modelled calls. C41_file_refuted: the names in parameters.ini are not checked.")
c('C42','partial',['C42_switch','C42_switch_error','C42_verbose_partial','C42_verbose_refuted'],"print_path, cache, raise_error, reload_next_time: every argument and state. verbose: refuted for negative integers.")
c('C43','proved',['C43_read_back','C43_any_history'],"Every state whose values JSON can write (every state reachable from a first session by any calls with such values: C43_any_history), if the folder set is still there and Python has threads (else 'parallel' is read as False).")
c('C44','partial',['C44_ends_partial','C44_refuted','C44_copy_refuted','C44_mixed_refuted','C44_first_start_refuted'],"Proved at the ends (before the first step, after parameters.ini is complete). Refuted everywhere in between: no later session starts.")
c('C45','partial',['C45_other_cases','C45_refuted'],"Refuted for every existing folder but the root.")
c('C54','partial',['C54_set_partial','C54_refuted','C54_saved_not_used_refuted'],"Numbers are taken in the session. Refuted: zero and negative numbers, words, and the next session.")
c('C55','partial',['C55_taken','C55_refused','C55_refuted'],"Numbers with any units. Refuted for zero and for a Density of an array, which leaves a file no later session can read.")
c('C56','proved',['C56_recursion_bounded','C56_set'],"Any sequence of calls, if Python allows at least 27 nested calls. C56_refuted: no lower bound.")
c('C57','proved',['C57_exact'],"Every disk and every folder that is a string.")
c('C50','partial',['C50_history','C50_never_wrong','C50_repaired','C50_first','C50_killed_refuted','C50_missing_refuted','C50_no_cloudpickle_refuted'],"Every history of sessions of a new installation that end: the next start has the built tables (C50_history). With deaths at any elementary step: it has those tables or raises (C50_never_wrong), and it raises only if parameters.ini, its copy or units_network.cache was cut (C50_repaired). Refuted: it does raise, for ever, after a death inside the network file; a deleted small file gives an incomplete dictionary; no start without cloudpickle.")
c('C58','partial',['C58_load_partial','C58_new_folder_partial','C58_path_partial','C58_refuted','C58_path_refuted'],"load() in the next session gives back what was saved; the start itself does not (C58_refuted), unless the folder has no network yet. load(path) silently does nothing if the default file is not there.")
c('C59','partial',['C59_remainder_partial','C59_smaller_partial','C59_quotient_partial','C59_division_partial','C59_zero_partial','C59_zero_quotient_partial','C59_zero_number','C59_floor_number','C59_refuted','C59_cross_quotient_partial'],"Remainders: every pair of quantities of a measured kind but Temperature and Data whose unit is listed under its kind first; quotients: the kinds with a squared kind, units written in letters. Refuted: 7 feet // 2 is not 84 inches // 2.")
c('C60','partial',['C60_round_partial','C60_default_partial','C60_again_partial','C60_order_partial','C60_method_partial','C60_equals_partial','C60_equals_equal_partial','C60_refuted_percentage','C60_refuted_default','C60_refuted_symmetric'],"Every quantity of a measured kind (exact rationals). Refuted: rounding a percentage divides it by 100, equals() without a precision raises, equals is not symmetric.")
c('C61','partial',['C61_one_partial','C61_square_partial','C61_value_partial','C61_inverse_partial','C61_refuted','C61_dimensionless_refuted'],"Measured kinds, units written in letters. Refuted: q ** 0 is no Dimensionless quantity; q ** (2 dimensionless) raises the number but not the unit.")
c('C62','partial',['C62_exactly','C62_products','C62_shipped','C62_kept','C62_neat','C62_refuted_new','C62_refuted'],"Every text and moment. Refuted: valid_unit never knows the user's names; '/' is a unit; 'm / s' is no unit.")
c('C63','partial',['C63_class_partial','C63_no_value','C63_unit','C63_user','C63_refuted'],"All 34 classes, simple (not composite) names. Refuted: ' m' is a valid unit, and no Length.")
c('C64','partial',['C64_whole','C64_decimal','C64_european','C64_told_whole','C64_told_decimal','C64_brackets_whole','C64_brackets_decimal','C64_exponent','C64_number','C64_other','C64_half_bracket','C64_bad_group','C64_english_refuted','C64_refuted'],"Every text of digits, groups and decimals. Refuted: 1,234.5 is read as 1.2345; two comma or point groups, negative exponents, groups inside brackets and imaginary numbers raise. Decimal texts are read by Python's float, a parameter of the model.")
c('C65','partial',['C65_form','C65_form_back','C65_other_way','C65_other_way_back','C65_one_conversion','C65_ends','C65_cleared','C65_definitions_partial','C65_wrong_format_refuted','C65_nothing_asked_refuted'],"Any converter and number reader that meet GuiSpec.sane, any boxes; with the converter of the package and any history of the form, the definitions of ShippedSpec are shown (C65_definitions_partial). Refuted: a side without a number is overwritten with 'None', the message 'wrong number format' never appears.")
c('C66','partial',['C66_error_stays_partial','C66_all_shown_partial','C66_one_timer_partial','C66_part','C66_error_stays_refuted','C66_blank_refuted'],"Every history in which the menus leave messages of fewer than 53 characters. Refuted with longer ones (two timers), and: the text shown for a long path may be empty for a while.")
c('C70','partial',['C70_text','C70_readable','C70_path_is_the_reason_partial','C70_failure_keeps_partial','C70_composite_text','C70_factor_text','C70_stale_refuted','C70_product_refuted'],"Every history, simple units without a special rule, every search algorithm. The text of every path with operators and numbers. Refuted: the sign of a product is lost (km*kg to m*g is told as km > m > 1 kg > g); after a failed conversion the path of the one before is told (with raise_error off the window shows it beside 'None').")
c('C69','partial',['C69_constants_partial'],"Every moment of every session; the values of the constants in other units are C32/C52. Missing: a user unit named b or B takes the place of the bit and the byte (hypothesis).")
c('C71','partial',['C71_elementwise','C71_answer','C71_no_conversion','C71_simpandas','C71_series_refuted'],"Any history, any units, any arithmetic in which dividing arrays agrees with dividing numbers. Refuted: convert() of a Series gives an ndarray. For quantities of arrays see C79.")
c('C67','partial',['C67_density','C67_density_asks_again','C67_fvf','C67_fvf_asks_again_partial','C67_marks','C67_search_again','C67_cancel_refuted','C67_fvf_cancel_refuted','C67_fvf_left_refuted','C67_window_refuted','C31_cancelled_refuted'],"Any answers and any clicks. Refuted: a cancelled dialog stores False and saves it (every volume then weighs nothing) and raises UnboundLocalError; a refused FVF may leave the factor 1; after set_parallel('m') the window does not open.")
c('C68','partial',['C68_fvf','C68_needed_fvf','C68_known_fvf','C68_needed_density','C68_known_density','C68_density','C68_density_refuted','C68_needed_refuted'],"Any answers. Refuted: 'abc,kg/m3' raises instead of asking again, '1,5' is 1 in the unit '5'; a needed density may be negative.")
c('C72','partial',['C72_sum','C72_product','C72_sign','C72_each','C72_inverse_partial','C72_inverse_zero','C72_inverse_product_partial','C72_frequency','C72_inverse_refuted','C72_minute_refuted','C72_matmul_partial','C72_pair','C72_tuple','C72_difference_refuted','C72_tuple_refuted','C72_truth','C72_truth_refuted'],"Numbers: all shipped classes. Inverses: measured kinds, units written in letters. Refuted: an inverse other than of seconds cannot be converted and .to returns it unchanged, in silence; subtracting quantities of different kinds subtracts nothing; adding to a tuple strips the units of the other kinds; bool(0 m) is True and bool(5 dimensionless) is False.")
c('C73','partial',['C73_product_partial','C73_quotient_partial','C73_no_law','C73_refuted'],"For all units, values and states: a product or quotient with a law that is returned is in the unit of the law, with the converted number, or could not be converted and is the plain product. Without a law it is the plain product. Missing: for which units the conversion exists. Refuted: 1 mA * 1 kV is in mA*kV and no power.")
c('C74','partial',['C74_kept','C74_off','C74_cancelled','C74_no_folder','C74_exported_partial','C74_refuted','C74_import_refuted'],"Any number of windows, each in its own process, from a new installation on, closed with the cache on. Refuted: the first window (and any window after reload_next_time) deletes the cache its process has just written; importing a memory does nothing, in silence, if the user folder has no search_memory.cache.")
c('C75','partial',['C75_short_partial','C75_units','C75_refuted'],"Exact rationals. Up to a minute. Refuted above: each minute adds 59 seconds to the time told, hours are never told.")
c('C76','partial',['C76_calendar','C76_parts','C76_moved_partial','C76_back_partial','C76_days_partial','C76_names_refuted','C76_two_refuted','C76_nano_refuted'],"Whole numbers of h, s, ms, us, ns, moments within 64 bits of nanoseconds; NumPy's dates are a parameter of the model outside 64 bits. Refuted: a day, a minute, a week, a month, a year or a fraction cannot be added (TypeError, ValueError), the difference of two dates is None, two dates cannot be compared or shown, and after adding nanoseconds a date has no year.")
c('C77','partial',['C77_product_partial','C77_quotient_partial','C77_sum_partial','C77_sum_refuted','C77_power_refuted'],"Measured kinds; multiples and quotients without Temperature. Refuted: the pure number on the left of + or - raises WrongUnitsError, and 2 ** (3 feet) is 8 feet.")
c('C78','partial',['C78_converted','C78_sum','C78_compared','C78_kind_refuted','C78_back_refuted'],"Registered before the first conversion of the session, with BFS (for the other algorithms see C27). Refuted: the converted quantity stays a user unit: with a Length it makes a pair and cannot be compared; a Length is never expressed in the user's unit (WrongUnitsError).")
c('C79','partial',['C79_items','C79_getitem','C79_converted','C79_sum','C79_sum_number','C79_single','C79_lengths','C79_multiple','C79_each','C79_compared','C79_number_refuted','C79_iterated_refuted','C79_product','C79_quotient','C79_division','C79_product_lengths','C79_total','C79_total_sum','C79_scaled','C79_changed','C79_number_sum','C79_number_product','C79_number_quotient','C79_with_number','C79_over_number','C79_number_over','C79_power','C79_round','C79_single_with','C79_single_over','C79_single_under','C79_single_power','C79_single_round','C79_truths','C79_truths_number','C79_kinds_apart','C79_truths_kind','C79_single_truths','C79_times','C79_divided','C79_law_product','C79_law_quotient','C79_no_law'],"For the kinds whose constructor checks the unit against the list of the class; for percentages where x*100/100 is x, as in exact arithmetic. Refuted: a quantity of a single number has length 1 but no item 0 (TypeError); iterating gives bare numbers, without their unit. For products and quotients the kind that units() picks for a name is a parameter (it never depends on the number). Missing: pandas' alignment of indexes.")
c('C80','partial',['C80_accuracy_partial','C80_floats_partial','C80_definitions_partial','C80_round_trip_partial','C80_returned_partial','C80_order_partial','C80_temperatures_partial','C80_temperatures_floats_partial','C80_temperatures_returned_partial','C80_degrees_partial','C80_composite_partial','C80_composite_given_partial'],"Any number type, any rounding with a bounded relative error, any history. Between degrees the bound is one part in 10^11 of the exact answer and of 1600 degrees together. Missing: the conversions with offsets between units that are no temperatures (only the order is proved there), the contradictory kinds, the range of floats (overflow, underflow, NaN), composite units with a factor of a kind with offsets or contradictions (with other factors: one part in 10^11 per factor, C80_composite_partial, C80_composite_given_partial). A number is returned for the kinds that are whole, with BFS and lean_BFS.")
c('C81','partial',['C81_first_registered','C81_user','C81_refused','C81_chain','C81_same_answer_partial','C81_prefixes','C81_objects','C81_get_convert','C81_object_text','C81_names','C81_str_refuted'],"The network's own methods. Missing: the agreement with convert() for the contradictory kinds (where it is false, C32_refuted). C81_str_refuted: str(network) raises as soon as a unit is registered.")
c('C82','partial',['C82_operands','C82_history','C82_unary','C82_binary','C82_written','C82_list','C82_wrong_unit','C82_copied','C82_sharing','C82_sharing_kept','C82_element','C82_element_refused','C82_units','C82_units_wrong','C82_values','C82_text','C82_repr','C82_percentage','C82_percentage_items','C82_copy_refuted','C82_units_refuted','C82_unitless_refuted','C82_slice_refuted'],"Quantities and arrays as places of a memory, any program of commands. The theorems are complete for the statement; what a user expects beyond it is refuted: a copy made by a constructor shares its array and does not convert, assigning units does not convert, converting a unitless quantity shares the array, a slice raises IndexError. Left out: the attribute name, NumPy's dtypes (an integer array truncates what is written), a list assigned to values (C83), UserUnits, Date.")
c('C83','partial',['C83_items','C83_converted','C83_sum','C83_sum_units','C83_compared','C83_array','C83_array_number','C83_joined_refuted','C83_repeated_refuted','C83_numbers_refuted','C83_compared_number_refuted'],"Items, length, iteration, conversions, comparisons with arrays, sums with arrays or between different units: every list, every kind but percentages, any history. Refuted: the sum of two of one unit joins the lists, an int times it repeats the list, other numbers, operators and signs raise, comparisons with a number raise or answer as a whole.")
here = os.path.dirname(os.path.abspath(__file__))
json.dump(dict(claims=C), open(os.path.join(here, '..', 'MANIFEST.json'), 'w'), indent=1)
