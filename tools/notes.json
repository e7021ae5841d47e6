{
 "C35": {
  "status": "partial",
  "note": "False of the code: loading again replaces the experiment (C35_refuted). Proved instead: exactly what is stored after one load (C35_replaced_as_coded) and after any history of loads (C35_history_as_coded), when nothing is lost (C35_exactly_partial), and that other experiments are kept."
 },
 "C49": {
  "status": "partial",
  "note": "False of the code: every distance is computed from the first one (C49_refuted). Only the first distance is right (C49_source_partial), and others exactly if they equal it (C49_exactly_partial)."
 },
 "C62": {
  "status": "partial",
  "note": "False of the code: errors are passed as weights (C62_refuted). It holds of exactly the data whose error bars are all equal (C62_equal_errors_partial, C62_exactly_equal_partial); otherwise every error bar counts as its inverse (C62_inverted)."
 }
}