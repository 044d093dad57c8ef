{
 "C96": {
  "note": "Turns are whole calls. The camera's side is the free-running camera of C89 (frames) and C19's control register (settings). The hypotheses are shown to hold in C96_applies and C96_settings_concrete; C96_half_a_picture shows two programs that never complete their pictures."
 },
 "C97": {
  "note": "What the library's powf and powi must satisfy is the record orderly (SpecOrder.v); C97_library shows a computable library that satisfies it. For an object colder than its surroundings and a sensitivity that falls with temperature the order over binary32 is not claimed (C66 gives it in exact arithmetic)."
 },
 "C98": {
  "note": "Exact arithmetic (RealOps); C73 and C74 bound the distance of the f32 results from it. The hypotheses hold in C98_concrete. For signals and slopes of the same sign (e.g. a cold object and a sensitivity that falls with temperature) no direction is claimed."
 },
 "C99": {
  "note": "accurate_powers is C74's assumption on the library; C99_library shows a library with both properties, C99_concrete the datasheet's pixel with an impossible raw value."
 },
 "C100": {
  "note": "The claim is about non-strict order: two different readings may round to the same temperature. C100_concrete: the datasheet's frame and the next one."
 },
 "C101": {
  "note": "C101_library shows a library with the property (the one of C97). An infinite emissivity or pixel sensitivity is not excluded by a finite value."
 },
 "C102": {
  "note": "C102_keeps_up / C102_falls_behind against the true maximum; C102_documented_table compares it with the documented one (register.rs 549-553). Clock tolerance of the camera is covered by no_sooner/no_later being inequalities. Not modelled: the 400 kHz limit for the EEPROM, clock stretching."
 },
 "C103": {
  "note": "C103_own_reads_fetch shows the hypothesis met by the driver's own reads; the bound counts all bytes of the other transcript, including any writes and failed transactions."
 },
 "C104": {
  "note": "The camera type of the calibration is one of the two documented ones, and HEIGHT at least the camera's height (as in both type aliases). A CalibrationData whose methods themselves have side effects or give different answers each time is not modelled."
 },
 "C105": {
  "note": "C105_frame_is_the_drivers is an equality of results for every bus state; C105_concrete also shows the difference in interleaved pattern."
 },
 "C106": {
  "note": "HEIGHT is the capacity of the ArrayVec read_ram collects the ranges into (collecting more panics)."
 },
 "C107": {
  "note": "C107_settings assumes a control register that changes only by being written (as C19); C107_concrete and C107_frame_concrete cut a history at every transaction."
 },
 "C108": {
  "note": "C108_signals and C108_frames are over exact reals; C108_images_640/641 are about the driver in binary32. C108_hypotheses: two objects one degree apart; C108_concrete: an ordinary pixel, one count is at most 0.1 degrees; C108_images_concrete: the datasheet's frame and one with a count more."
 },
 "C109": {
  "note": "The two routines are modelled from their published algorithms (their sources are not in /repo); negative exponents, where they differ, are not used by the crate. C109_concrete: the two builds with the correctly rounded root; C109_checks: values."
 },
 "C110": {
  "note": "raw_images_fine is the statement; C110_gain_needed shows why the gain is bounded below; C110_concrete and C110_values: the datasheet's camera and a frame with one count more."
 },
 "C111": {
  "note": "Where exactly the debug build panics is C35 (calls) and C45 (decoding). C111_decoding_stops, C111_decoding_same and C111_call_stops: both alternatives occur. For true-frame-rate only the result is stated, not the transactions up to a panic."
 },
 "C112": {
  "note": "C112_working_range: the hypotheses; C112_ambient and C112_raw_image: the driver. C112_concrete, C112_settings and C112_camera: the sample camera and frame meet them. C112_pole: a frame outside at which the ambient formula has its pole."
 },
 "C113": {
  "note": "C113_concrete and C113_warm: the sample frame is in the range and its pixel (12, 16), of about 80 degrees, too."
 },
 "C114": {
  "note": "C114_working_range: the hypotheses of C72-C74; C114_concrete, C114_camera and C114_warm: a sample frame and camera in the range."
 }
}