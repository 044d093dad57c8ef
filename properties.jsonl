{"id": "C01", "title": "Register field setters are isolated", "statement": "For the status and control registers, after setting a field to a value the corresponding getter returns that value, every other documented field reads as before, and every reserved bit of the raw register is unchanged.", "quantifier": "every 16-bit raw register value, every settable field, every value of that field", "why_tests_cant": "The tests try one or two raw values per field; the law covers all 65536 raw values times all field values.", "anchors": ["mlx9064x/src/register.rs: StatusRegister, ControlRegister set_* methods"]}
{"id": "C02", "title": "Register decoding is total and follows the documented bit layout", "statement": "Decoding two bytes into a status/control register never panics in any getter, every getter returns the documented bit field of the big-endian word, converting back to bytes returns the two bytes unchanged, register equality holds exactly when all documented fields agree, and decoding a slice of fewer than two bytes panics.", "quantifier": "every pair of bytes (and every byte slice, for the short-slice panic)", "why_tests_cant": "The getters unwrap() an enum conversion; absence of panics needs all raw values.", "anchors": ["mlx9064x/src/register.rs: From<&[u8]>, Into<[u8;2]>, PartialEq, last_updated_subpage, subpage, frame_rate, resolution, access_pattern"]}
{"id": "C03", "title": "I2C configuration register flags", "statement": "Decoding then encoding the I2C configuration register preserves the three documented flags and encodes a value whose decoding is the same; enabled/disabled polarity follows the documentation. The advice on the Register trait that reserved bits are preserved when a register is changed is NOT kept by this type: any reserved bit set on the camera is cleared by a read-modify-write.", "quantifier": "every 16-bit raw value and every triple of flags", "why_tests_cant": "Needs all raw values; tests use values with clear reserved bits.", "anchors": ["mlx9064x/src/register.rs: I2cRegister, Register::write_mask"]}
{"id": "C04", "title": "Frame rate conversions are mutually consistent", "statement": "Converting a FrameRate to its raw code or to f32 and back gives the same FrameRate; from raw codes, TryFrom<u8> and TryFrom<f32> accept exactly the documented values (a NaN, infinity or neighbouring float is rejected with the documented error); the Duration of a frame is a whole number of nanoseconds which times the frequency is exactly one second.", "quantifier": "every FrameRate, every u8, every binary32 float, every raw u16", "why_tests_cant": "TryFrom<f32> has 2^32 inputs and Duration exactness depends on float rounding.", "anchors": ["mlx9064x/src/register.rs: FrameRate"]}
{"id": "C05", "title": "Resolution conversions and the ADC resolution correction factor", "statement": "Resolution to raw and to u8 round-trip and reject every other value; resolution_correction(calibrated, current) is exactly 2^(calibrated-current) as a binary32 number for both cameras and never overflows its i8 arithmetic.", "quantifier": "every Resolution pair, every u8, every raw u16", "why_tests_cant": "Tests fix the calibrated resolution; exactness is a rounding statement.", "anchors": ["mlx9064x/src/register.rs: Resolution", "mlx9064x/src/mlx90640/mod.rs: resolution_correction", "mlx9064x/src/mlx90641/mod.rs: resolution_correction"]}
{"id": "C06", "title": "Hamming encoding", "statement": "add_checksum succeeds exactly on words that fit in eleven bits; the result keeps the eleven data bits in place, has even overall parity, and satisfies each of the five documented parity equations; distinct data words have codewords at Hamming distance at least four.", "quantifier": "every 16-bit word (every pair of data words for the distance)", "why_tests_cant": "Exhaustive over 2^16 words and 2^22 pairs.", "anchors": ["mlx9064x/src/mlx90641/hamming.rs: add_checksum"]}
{"id": "C07", "title": "Hamming single-error correction", "statement": "Validating a correct codeword returns its data, and validating a codeword with any single one of its sixteen bits flipped also returns the original data.", "quantifier": "every data word and every bit position", "why_tests_cant": "All 2048*17 cases; tests use a few.", "anchors": ["mlx9064x/src/mlx90641/hamming.rs: validate_checksum"]}
{"id": "C08", "title": "Hamming double-error detection", "statement": "Validating a codeword with any two different bits flipped returns Checksum carrying the received word; it is never miscorrected.", "quantifier": "every data word and every pair of distinct bit positions", "why_tests_cant": "2048*120 cases.", "anchors": ["mlx9064x/src/mlx90641/hamming.rs: validate_checksum"]}
{"id": "C09", "title": "Hamming validation is exactly bounded-distance decoding", "statement": "validate_checksum(w) is Ok(d) if and only if w is within one bit flip of the codeword of d; otherwise it is Checksum(w). It never panics and returns no other error.", "quantifier": "every 16-bit word", "why_tests_cant": "Characterises the decoder on every word, including those no encoder produces.", "anchors": ["mlx9064x/src/mlx90641/hamming.rs: validate_checksum"]}
{"id": "C10", "title": "MLX90640 subpages partition the image", "statement": "For each access pattern, pixels_in_subpage yields exactly 768 booleans; the pixel at row r, column c belongs to subpage 0 in chess mode iff r and c have equal parity and in interleave mode iff r is even; every pixel is in exactly one of the two subpages and each subpage has 384 pixels.", "quantifier": "every access pattern, subpage and pixel index", "why_tests_cant": "Tests compare a generated prefix; partition is a statement about all indices and both subpages together.", "anchors": ["mlx9064x/src/mlx90640/mod.rs: Mlx90640PixelSubpage"]}
{"id": "C11", "title": "MLX90640 pixel read ranges", "statement": "pixel_ranges yields at most HEIGHT ranges; every range lies inside pixel RAM (0x0400-0x06FF) and inside a 1536-byte buffer, byte offset = 2*(address-0x0400), ranges do not overlap, and every pixel belonging to the subpage is covered by exactly one range.", "quantifier": "every subpage, access pattern, range and pixel", "why_tests_cant": "The tests check the first four ranges only.", "anchors": ["mlx9064x/src/mlx90640/mod.rs: Mlx90640Pixels"]}
{"id": "C12", "title": "MLX90641 pixel read ranges", "statement": "pixel_ranges yields at most HEIGHT ranges that write each of the 192 pixels of the 384-byte buffer exactly once; pixel p of subpage s is read from address 0x0400 + 64*(p/32) + 32*s + p mod 32, independent of the access pattern; all addresses are in pixel RAM and the two subpages never read the same address.", "quantifier": "every subpage, access pattern and pixel", "why_tests_cant": "Requires all pixels and both subpages.", "anchors": ["mlx9064x/src/mlx90641/mod.rs: SubpageInterleave"]}
{"id": "C13", "title": "Frame reads issue exactly the documented transactions", "statement": "A successful RAM read of a frame performs one read per pixel range in order, then T_a_VBE, T_a_PTAT, V_DD_pix, gain and the compensation pixel of the given subpage, each of 2 bytes, and nothing else; no write occurs.", "quantifier": "every bus behaviour, camera, subpage, access pattern, I2C address", "why_tests_cant": "A test sees one bus; the property is over every device behaviour.", "anchors": ["mlx9064x/src/common.rs: read_ram", "mlx9064x/src/calculations.rs: RamData::from_i2c"]}
{"id": "C14", "title": "Frame reads return the device memory", "statement": "If the device answers every read with the contents of its memory, then after a successful frame read every pixel of the subpage in the buffer, and every RamData field, equals the big-endian (signed) word at its documented RAM address; buffer bytes not covered by a range are unchanged.", "quantifier": "every memory content, buffer content, subpage, access pattern, both cameras", "why_tests_cant": "Needs all memory contents.", "anchors": ["mlx9064x/src/common.rs: read_ram", "mlx9064x/src/calculations.rs: RamData"]}
{"id": "C15", "title": "A failing transaction aborts a frame read", "statement": "If the k-th bus transaction of a frame read fails, the read returns I2cWriteReadError with the error of that transaction and issues no further transaction.", "quantifier": "every bus behaviour and every position k of the first failure", "why_tests_cant": "Fault injection at every position under every device behaviour.", "anchors": ["mlx9064x/src/common.rs: read_ram"]}
{"id": "C16", "title": "Frame read never accesses the buffer out of bounds", "statement": "read_ram with a buffer at least as large as the camera needs never panics on any bus; with a smaller buffer it panics (it never writes outside the buffer or resizes it).", "quantifier": "every buffer length and content, every bus", "why_tests_cant": "Every buffer length and device behaviour.", "anchors": ["mlx9064x/src/common.rs: read_ram"]}
{"id": "C17", "title": "Bus safety over every history", "statement": "Whatever sequence of driver methods is called and however the bus behaves (including failures at any point), every transaction uses the configured I2C address; writes are 4 bytes long and go only to the status (0x8000) or control (0x800D) register; reads send a 2-byte address, are non-empty, of even length and lie entirely in RAM, the EEPROM or those registers. In particular the driver never writes to the EEPROM.", "quantifier": "every finite history of public driver calls, every bus behaviour, both cameras", "why_tests_cant": "Histories are unbounded and bus behaviour arbitrary.", "anchors": ["mlx9064x/src/driver.rs: CameraDriver", "mlx9064x/src/register.rs: FromI2C/ToI2C"]}
{"id": "C18", "title": "Setters are minimal read-modify-writes", "statement": "Each set_* method reads the register once; if the field already has the requested value nothing is written; otherwise exactly one write follows, whose value differs from the value read only in that field; a read error is returned before any write.", "quantifier": "every bus behaviour, register content, setter and argument", "why_tests_cant": "All register contents and bus behaviours.", "anchors": ["mlx9064x/src/driver.rs: set_register_field"]}
{"id": "C19", "title": "Cached access pattern and resolution agree with the camera", "statement": "After any history of driver calls in which no bus transaction failed, on a camera whose control register only changes by being written, the access pattern and resolution correction used for image calculations equal those of the camera control register. With a failing write this is false: the cache is updated before the write.", "quantifier": "every fault-free history; every control register value (and, for the refutation, an explicit fault history)", "why_tests_cant": "Invariant over unbounded histories.", "anchors": ["mlx9064x/src/driver.rs: set_control_register, update_control_register, control_register, new_with_calibration"]}
{"id": "C20", "title": "No new data means no effect", "statement": "When the status register reports no new data, generate_image_if_ready returns Ok(false) after exactly one read transaction and leaves the destination, the ambient temperature and every other part of the driver unchanged.", "quantifier": "every driver state, destination and bus behaviour", "why_tests_cant": "All states and status values.", "anchors": ["mlx9064x/src/driver.rs: generate_image_if_ready"]}
{"id": "C21", "title": "A ready frame is consumed exactly once, in order", "statement": "When generate_image_if_ready returns Ok(true) it performed: the status read, the frame read of the subpage in that status, then one status write whose value is the value read with only the new-data bit cleared; the ambient temperature is the one of the frame.", "quantifier": "every driver state, destination and bus behaviour", "why_tests_cant": "Ordering over every bus behaviour.", "anchors": ["mlx9064x/src/driver.rs: generate_image_if_ready"]}
{"id": "C22", "title": "Failed image generation leaves no partial image", "statement": "If any read fails, the destination, the ambient temperature, emissivity, reflected temperature and cached settings are unchanged and the new-data flag is not cleared (no write is issued). This does NOT extend to the final acknowledge write: if only that fails the call returns Err although destination and ambient temperature are already updated.", "quantifier": "every failure position, bus behaviour, driver state and destination", "why_tests_cant": "Fault injection at each transaction.", "anchors": ["mlx9064x/src/driver.rs: generate_image_if_ready, generate_image_subpage_to, generate_raw_image_subpage_to, generate_image_to"]}
{"id": "C23", "title": "Only pixels of the measured subpage are written", "statement": "Image generation never changes the length of the destination, changes only elements whose index is a pixel of the subpage, and for a destination longer or shorter than the image ignores the excess / computes the prefix; it never panics because of the destination length.", "quantifier": "every destination length and content, subpage, access pattern, camera, bus", "why_tests_cant": "All lengths and contents.", "anchors": ["mlx9064x/src/calculations.rs: raw_pixels_to_temperatures, raw_pixels_to_ir_data, raw_ir_to_temperatures", "mlx9064x/src/driver.rs: generate_image_subpage_to"]}
{"id": "C24", "title": "Two subpages make a full image, independent of stale state", "statement": "Generating both subpages into one destination of image size determines every pixel from the two frames alone: the result does not depend on the initial destination, on the previous content of the internal pixel buffer or on earlier frames.", "quantifier": "every initial destination, internal buffer, pair of frames, access pattern, both cameras", "why_tests_cant": "Quantifies over hidden state left by all histories.", "anchors": ["mlx9064x/src/driver.rs: generate_image_subpage_to, generate_image_if_ready", "mlx9064x/src/mlx90640/mod.rs: pixels_in_subpage"]}
{"id": "C25", "title": "The image generation entry points agree", "statement": "generate_image_to equals a status read followed by generate_image_subpage_to with the last measured subpage; for the same responses generate_image_if_ready (when ready) stores the same image and ambient temperature; generate_image_to and the subpage variants never write to the bus.", "quantifier": "every driver state, bus behaviour and destination", "why_tests_cant": "Relational over all bus behaviours.", "anchors": ["mlx9064x/src/driver.rs: generate_image_to, generate_image_subpage_to, generate_image_if_ready"]}
{"id": "C26", "title": "Emissivity, reflected and ambient temperature follow the last update", "statement": "After any history, the effective emissivity is the last override since the last use_default_emissivity (or construction), else the calibration emissivity or 1; the reflected temperature is the last value set; the ambient temperature is None until the first successfully computed frame and then that of the most recent one; no other call changes them.", "quantifier": "every finite history of driver calls and every bus behaviour", "why_tests_cant": "Unbounded histories.", "anchors": ["mlx9064x/src/driver.rs: override_emissivity, use_default_emissivity, set_reflected_temperature, ambient_temperature"]}
{"id": "C27", "title": "synchronize waits for a measurement made after its request", "statement": "synchronize writes the status register exactly once, with the new-data bit cleared and overwrite-enable and start-measurement set and all other bits as read, then only reads the status; it returns Ok only after a read made after that write shows new data, and after the first such read; any error is returned immediately; if the camera reports data after n reads it performs exactly n.", "quantifier": "every bus behaviour and every number of polls", "why_tests_cant": "The loop is unbounded.", "anchors": ["mlx9064x/src/driver.rs: synchronize"]}
{"id": "C28", "title": "Acknowledging a frame can lose a newer one", "statement": "It is not true that every frame the camera announces is either returned or still flagged afterwards: a frame that completes between the status read and the acknowledge write of generate_image_if_ready has its flag cleared without being read.", "quantifier": "an explicit device schedule", "why_tests_cant": "Needs a precise interleaving of camera and controller.", "anchors": ["mlx9064x/src/driver.rs: generate_image_if_ready"]}
{"id": "C29", "title": "Construction", "statement": "new reads the whole EEPROM (0x2400, 1664 bytes) once, then the control register once, and nothing else; on success the driver has no ambient or reflected temperature, emissivity from calibration or 1, cached settings from the control register and a zeroed buffer; any failing step returns its error with no later transaction; new_with_calibration only reads the control register.", "quantifier": "every bus behaviour, I2C address and calibration", "why_tests_cant": "All bus behaviours.", "anchors": ["mlx9064x/src/driver.rs: new, new_with_calibration", "mlx9064x/src/mlx90640/eeprom.rs: from_i2c", "mlx9064x/src/mlx90641/eeprom.rs: from_i2c"]}
{"id": "C30", "title": "The driver respects the reference mock camera", "statement": "Running any history of driver calls against the MockCameraBus of the test crate (any RAM, EEPROM and register contents) never triggers a MockError, so every constraint the mock enforces (no reserved bits changed, no illegal address, whole words) holds in every history.", "quantifier": "every history, every memory and register content", "why_tests_cant": "Unbounded histories on every memory content.", "anchors": ["mlx9064x-test-data/src/i2c_mock.rs: MockCameraBus", "mlx9064x/src/driver.rs"]}
{"id": "C31", "title": "One-pass and two-pass temperature computation agree", "statement": "raw_pixels_to_temperatures gives exactly the same destination and ambient temperature as raw_pixels_to_ir_data followed by raw_ir_to_temperatures with the same mask, for every implementation of floating-point arithmetic.", "quantifier": "every calibration, RAM data, pixel data, mask, destination and float implementation", "why_tests_cant": "Bit-exact agreement for all inputs.", "anchors": ["mlx9064x/src/calculations.rs: raw_pixels_to_temperatures, raw_pixels_to_ir_data, raw_ir_to_temperatures"]}
{"id": "C32", "title": "Reflected temperature is ignored exactly when documented", "statement": "With emissivity equal to 1 the temperatures do not depend on the reflected temperature; when no reflected temperature is given, ambient minus the self-heating constant (8 or 5 degrees) is used.", "quantifier": "every calibration, frame, reflected temperature and float implementation", "why_tests_cant": "All inputs.", "anchors": ["mlx9064x/src/calculations.rs: t_ar, raw_ir_to_temperatures"]}
{"id": "C33", "title": "Pixels are independent", "statement": "The value written for a pixel depends on the pixel buffer only through that pixel own two bytes, and not on the destination; corrupting other pixels does not affect it.", "quantifier": "every pair of pixel buffers agreeing at a pixel, every destination", "why_tests_cant": "Relational property over all buffers.", "anchors": ["mlx9064x/src/calculations.rs: raw_pixels_to_temperatures"]}
{"id": "C34", "title": "Supply voltage formula", "statement": "The documented identity (Res*Vpix - V25)/K + V0 = Res*deltaV + V0 fails for Res other than 1; v_dd implements the second form. The two agree over the reals iff Res = 1 or V25 = 0 (K nonzero).", "quantifier": "every resolution correction, supply voltage reading and calibration", "why_tests_cant": "An algebraic statement over all values.", "anchors": ["mlx9064x/src/calculations.rs: v_dd, delta_v"]}
{"id": "C35", "title": "Supply voltage difference overflow", "statement": "delta_v panics (overflow checks on) or wraps (off) exactly when v_dd_pixel - v_dd_25 is outside i16; that is reachable from camera data for a valid calibration, so image generation is not panic-free for arbitrary RAM contents.", "quantifier": "every calibration and RAM value", "why_tests_cant": "Boundary of 2^32 input pairs; tests use typical values.", "anchors": ["mlx9064x/src/calculations.rs: delta_v"]}
{"id": "C36", "title": "IR measurement is monotone in the raw pixel value", "statement": "With positive gain ratio and emissivity and finite intermediate results, a larger raw pixel value never gives a smaller IR measurement, including float rounding.", "quantifier": "every pair of raw values and every binary32 common data / calibration value", "why_tests_cant": "Rounding behaviour over all floats.", "anchors": ["mlx9064x/src/calculations.rs: per_pixel_v_ir"]}
{"id": "C37", "title": "MLX90640 EEPROM dump length handling", "statement": "A dump shorter than 831 bytes is rejected with an error and one of at least 1664 bytes is never rejected; but dumps of 831 to 1663 bytes, which do not cover all of the EEPROM, are not rejected with an error: from_data panics (the check compares bytes with words).", "quantifier": "every byte slice, by length", "why_tests_cant": "All lengths and contents.", "anchors": ["mlx9064x/src/mlx90640/eeprom.rs: from_data"]}
{"id": "C38", "title": "MLX90640 calibration depends only on the calibration words", "statement": "from_data on dumps of at least 1664 bytes depends only on bytes 32 to 1663: the first 16 words and any trailing bytes are irrelevant.", "quantifier": "every pair of dumps agreeing on bytes 32..1663", "why_tests_cant": "Relational over all dumps.", "anchors": ["mlx9064x/src/mlx90640/eeprom.rs: from_data"]}
{"id": "C39", "title": "MLX90640 offset calibration formula", "statement": "For every pixel (i,j) not marked failed, the offset reference is average + row_i*2^row_scale + col_j*2^col_scale + remainder*2^rem_scale, with signed 4/4/6-bit coefficients taken from the documented bit fields, reduced to 16 bits. The stored value is exactly that sum whenever each shifted term fits 16 bits and either from_data returned with overflow checks on or the sums do not overflow; a left shift that drops bits is silent even with overflow checks on.", "quantifier": "every EEPROM content, every pixel", "why_tests_cant": "All EEPROM contents; the tests use two dumps.", "anchors": ["mlx9064x/src/mlx90640/eeprom.rs: calculate_bulk_pixel_calibration, from_data"]}
{"id": "C40", "title": "MLX90640 sensitivity and K_Ta calibration formulas", "statement": "For every non-failed pixel alpha = (average + row + column + remainder terms)/2^(alpha_scale+30) and K_Ta = (K_Ta_rc + remainder*2^scale2)/2^(scale1+8) with K_Ta_rc chosen by row/column parity. In binary32 these values carry no rounding error at all; they are exact when the shifted terms and sums fit 16 bits (always so for the K_Ta term when scale2 <= 13), and otherwise the exact scaled value of the 16-bit wrapped sums.", "quantifier": "every EEPROM content, every pixel", "why_tests_cant": "Exactness of float arithmetic over all EEPROM contents.", "anchors": ["mlx9064x/src/mlx90640/eeprom.rs: from_data"]}
{"id": "C41", "title": "MLX90640 failed and outlier pixels", "statement": "A pixel is flagged failed iff its EEPROM word is zero and flagged outlier iff its word is non-zero with bit 0 set; never both. The documentation says failed pixels should be skipped in temperature calculations; they are NOT skipped.", "quantifier": "every EEPROM content and pixel", "why_tests_cant": "All contents.", "anchors": ["mlx9064x/src/mlx90640/eeprom.rs: from_data", "mlx9064x/src/common.rs: CalibrationData::failed_pixels", "mlx9064x/src/calculations.rs"]}
{"id": "C42", "title": "MLX90640 scalar calibration parameters", "statement": "k_v_dd, v_dd_25, k_v_ptat, k_t_ptat, v_ptat_25, gain, k_s_ta, resolution, corner temperatures, k_s_to, alpha_cp, offset_cp, k_v_cp, k_ta_cp, TGC and k_v pattern equal the datasheet formulas on the documented bit fields, exactly (no rounding, no overflow) for every EEPROM content.", "quantifier": "every EEPROM content", "why_tests_cant": "All EEPROM contents.", "anchors": ["mlx9064x/src/mlx90640/eeprom.rs: from_data, get_temperature_range_data"]}
{"id": "C43", "title": "MLX90640 interleave compensation pattern", "statement": "For every pixel the compensation value used in interleave mode equals IL_CHESS3*(2*ILpattern-1) - IL_CHESS2*ConversionPattern of the datasheet (1-indexed, integer divisions); in chess mode there is none; 768 values are produced. The simplified formulas the crate's documentation gives beside the code agree with the datasheet's conversion pattern at every pixel, but its simplified interleave pattern agrees only where the parities of row and column agree; the code follows the datasheet, not the simplification.", "quantifier": "every pixel and every calibration", "why_tests_cant": "All pixels and all coefficient values.", "anchors": ["mlx9064x/src/mlx90640/eeprom.rs: PixelAccessPatternCompensation, get_access_pattern_corrections"]}
{"id": "C44", "title": "alpha_PTAT and average sensitivity decoding", "statement": "The datasheet value alpha_PTAT = EE/4 + 8 (fractional) is not what is computed: the division is an integer division; it agrees iff the nibble is a multiple of 4. The average sensitivity word is decoded as signed although the datasheet stores an unsigned value; they agree iff the word is below 0x8000.", "quantifier": "every value of the EEPROM fields", "why_tests_cant": "All field values.", "anchors": ["mlx9064x/src/mlx90640/eeprom.rs: from_data, calculate_bulk_pixel_calibration"]}
{"id": "C45", "title": "EEPROM decoding and overflow checks", "statement": "With overflow checks off from_data of both cameras never panics on a full dump. With them on, MLX90640 from_data panics exactly when some pixel's sum overflows 16 bits (reachable), and MLX90641 from_data panics exactly when the scaled offset or its sum with the average overflows 16 bits for some pixel; when it does not panic the result is the same as with checks off.", "quantifier": "every EEPROM content", "why_tests_cant": "All EEPROM contents.", "anchors": ["mlx9064x/src/mlx90640/eeprom.rs: from_data", "mlx9064x/src/mlx90641/eeprom.rs: from_data"]}
{"id": "C46", "title": "MLX90641 EEPROM single-bit fault tolerance", "statement": "Flipping at most one bit in each EEPROM word that is used (any set of words at once) of an MLX90641 dump whose used words are valid codewords leaves the calibration result unchanged; more generally two dumps whose used words correct to the same data give the same result.", "quantifier": "every dump of valid codewords, every choice of at most one flipped bit per word", "why_tests_cant": "17^832 fault patterns.", "anchors": ["mlx9064x/src/mlx90641/eeprom.rs: from_data", "mlx9064x/src/mlx90641/hamming.rs"]}
{"id": "C47", "title": "MLX90641 EEPROM double-bit fault detection", "statement": "If any EEPROM word that is used has an uncorrectable checksum, from_data returns an error (Checksum with the first such word in reading order) and no calibration; words that are not used do not matter.", "quantifier": "every dump, every used word position", "why_tests_cant": "All dumps and positions.", "anchors": ["mlx9064x/src/mlx90641/eeprom.rs: from_data"]}
{"id": "C48", "title": "MLX90641 calibration formulas", "statement": "For every pixel not marked failed and every scalar parameter, the decoded calibration equals the documented formula on the corrected data words: exactly for all integer and scalar parameters (for values split over two words when the low word holds five bits, for scale exponents up to 127), K_Ta and K_V with one rounding of the numerator (none when the second scale is at most 18), the pixel sensitivity within one part in 8388607 of the documented value.", "quantifier": "every dump of correctable words", "why_tests_cant": "All dumps.", "anchors": ["mlx9064x/src/mlx90641/eeprom.rs: from_data, PerPixelCalibration::from_data, get_sensitivity_reference"]}
{"id": "C49", "title": "MLX90641 average offset is 16 bits", "statement": "The average offset is stored across two words as a 16-bit value; from_data keeps only the low 11 bits, so it equals the stored value iff that value is in -1024..1023.", "quantifier": "every value of the two words", "why_tests_cant": "All 2^22 values; the datasheet example lies inside the safe range.", "anchors": ["mlx9064x/src/mlx90641/eeprom.rs: PerPixelCalibration::from_data"]}
{"id": "C50", "title": "MLX90641 dump length handling", "statement": "from_data of a full dump (1664 bytes or more) never fails for length reasons and no shorter dump is ever accepted; a dump between 1280 and 1663 bytes gives an error; a shorter dump whose words are all correctable panics instead of returning an error.", "quantifier": "every byte slice by length", "why_tests_cant": "All lengths.", "anchors": ["mlx9064x/src/mlx90641/eeprom.rs: from_data, PerPixelCalibration::from_data"]}
{"id": "C51", "title": "MLX90641 failed pixels", "statement": "A pixel is flagged failed iff all four of its EEPROM data words decode to zero; failed pixels get zero calibration values; outlier flags equal failed flags.", "quantifier": "every dump and pixel", "why_tests_cant": "All contents.", "anchors": ["mlx9064x/src/mlx90641/eeprom.rs: PerPixelCalibration::from_data, outlier_pixels"]}
{"id": "C52", "title": "Signed bit-field extraction", "statement": "Extraction of an n-bit signed field equals two-complement sign extension of its low n bits ignoring higher bits, and the nibble / 6-10 / 6-5 splits reassemble to the original word.", "quantifier": "every word and every width 1..16", "why_tests_cant": "All words and widths.", "anchors": ["mlx9064x/src/util.rs: i16_from_bits", "mlx9064x/src/mlx90640/eeprom.rs: word_6_10_split, word_to_u4s, u8_to_i4s, word_to_i4s", "mlx9064x/src/mlx90641/eeprom.rs: split_6_5"]}
{"id": "C53", "title": "Sensitivity range corrections", "statement": "alpha_correction is 1 for the basic range and follows the datasheet recurrence in both directions: product of (1+KsTo_n*(CT_{n+1}-CT_n)) above, product of reciprocals below; the recursion always terminates and never indexes out of bounds for arrays of the camera size.", "quantifier": "every basic range index, array of temperatures and slopes; every EEPROM dump of both cameras that decodes", "why_tests_cant": "Recursion over arbitrary lengths.", "anchors": ["mlx9064x/src/common.rs: alpha_correction_coefficients, alpha_corr_n"]}
{"id": "C54", "title": "Chessboard calibration patterns", "statement": "The K_V pattern iterator and the K_Ta averages both yield 768 values where the value at row r column c is selected by (r mod 2, c mod 2) in the documented order.", "quantifier": "every four source values and every pixel", "why_tests_cant": "All pixels and source values.", "anchors": ["mlx9064x/src/mlx90640/eeprom.rs: ChessboardIter, repeat_chessboard"]}
{"id": "C55", "title": "Every image has the documented values", "statement": "Whenever a call that produces an image (raw or temperature, by subpage, last measured or if-ready) computes one, the transactions of the call contain exactly one completed frame read, and every pixel of the destination that belongs to the subpage, and the ambient temperature, equal the documented formulas applied to the memory contents the camera delivered in that frame, with the driver's current emissivity, reflected temperature, access pattern and resolution correction; all other pixels are unchanged.", "quantifier": "every camera, calibration, bus behaviour, history of calls, image call, destination and float implementation", "why_tests_cant": "tests compare a few pixels of one recorded frame; the claim covers every frame content, interleaving of settings and pixel.", "anchors": ["mlx9064x/src/driver.rs: generate_raw_image_subpage_to, generate_image_subpage_to, generate_image_to, generate_image_if_ready", "mlx9064x/src/calculations.rs: raw_pixels_to_ir_data, raw_pixels_to_temperatures"]}
{"id": "C56", "title": "Getters and setters on the reference camera behave like the datasheet registers", "statement": "On a camera behaving like the reference camera (MockCameraBus), every register setter call succeeds, leaves the register holding the documented encoding of the requested value with all other bits unchanged, and every getter returns the decoded value of the register as it is at that moment; reset_data_available clears exactly the new-data flag.", "quantifier": "all reference-camera states, both camera models, all setter arguments, all driver states", "why_tests_cant": "tests check one value on one initial register content; the claim covers all register contents and all driver states reachable by any history", "anchors": ["mlx9064x/src/driver.rs: set_*/get_* methods", "mlx9064x/src/register.rs", "mlx9064x-test-data/src/i2c_mock.rs: MockCameraBus"]}
{"id": "C57", "title": "Register writes are read-modify-write and touch only documented bits", "statement": "Every write transaction the driver ever sends goes to the status or control register and writes the word most recently read (successfully, in the same call, with only reads in between) from that same register, changed only in documented writable bits.", "quantifier": "all histories of public method calls, all bus behaviours and fault patterns, both camera models", "why_tests_cant": "requires all call sequences and all register values returned by the device, including values with reserved bits set", "anchors": ["mlx9064x/src/driver.rs", "mlx9064x/src/register.rs", "mlx9064x-test-data/src/i2c_mock.rs: set"]}
{"id": "C58", "title": "A bus failure ends the call and is reported", "statement": "If a transaction made during a method call fails, it is the last transaction of that call and the call returns exactly that error (read errors as I2cWriteReadError, write errors as I2cWriteError); conversely a bus error is returned only if a transaction failed.", "quantifier": "all methods and arguments, all driver states, all fault patterns of the bus", "why_tests_cant": "requires every possible failing transaction position in every method", "anchors": ["mlx9064x/src/driver.rs", "mlx9064x/src/error.rs"]}
{"id": "C59", "title": "Images on the reference camera are the documented image of its memory", "statement": "generate_image_if_ready and generate_image_subpage_to on the reference camera return the pixel values given by the documented formulas applied to the memory contents of that camera.", "quantifier": "all reference-camera memory contents, all calibrations, both camera models, any prior history", "why_tests_cant": "tests compare a single frame of one memory image", "anchors": ["mlx9064x/src/driver.rs", "mlx9064x/src/calculations.rs", "mlx9064x-test-data/src/i2c_mock.rs"]}
{"id": "C60", "title": "The reference camera's write protection", "statement": "The reference camera accepts a write to a register only if protected bits are unchanged; likewise for EEPROM writes starting at control register 1 (0x240C). (Refuted for 0x240D, which accepts anything, and for other EEPROM words, where a write panics.)", "quantifier": "all camera contents, all addresses and written data", "why_tests_cant": "requires all written values against all stored values", "anchors": ["mlx9064x-test-data/src/i2c_mock.rs: MockCameraBus::set, check_new_against_mask"]}
{"id": "C61", "title": "The reference camera's set_data_available changes only the flag", "statement": "set_data_available(true) changes only the new-data bit of the status register; (refuted) set_data_available(false) does so as well: in fact it also clears the overwrite-enable and start-measurement bits.", "quantifier": "all camera contents", "why_tests_cant": "requires all stored status words", "anchors": ["mlx9064x-test-data/src/i2c_mock.rs: set_data_available"]}
{"id": "C62", "title": "A constructed driver is complete and its calls end only in documented ways", "statement": "If new succeeds on an MLX90640 or MLX90641, the driver has calibration values for every pixel and a large enough buffer, keeps them through any history of calls, and: every call returns a value or a bus error (never a library error); without overflow checks no call ever panics; with overflow checks only an image call panics, and only if the frame it read shows a supply voltage whose difference from the calibrated one does not fit 16 bits (possible for every MLX90640); only synchronize can wait, and only while the camera reports no new data; every image computed is the documented image of the calibration decoded from the dump that new read, the driver's settings and the memory words the camera delivered.", "quantifier": "every bus behaviour, I2C address, EEPROM content, history of calls and float implementation", "why_tests_cant": "ranges over all EEPROM contents, bus behaviours and histories; indexing panics hide in rare combinations", "anchors": ["mlx9064x/src/driver.rs: new and all public methods", "mlx9064x/src/mlx90640/eeprom.rs: from_data", "mlx9064x/src/mlx90641/eeprom.rs: from_data", "mlx9064x/src/calculations.rs"]}
{"id": "C63", "title": "Register write masks and defaults", "statement": "The documented write mask of each register contains exactly the bits that some setter of that register can change (the control register's mask additionally contains bits 5 and 6, the reserved rest of the three-bit subpage field, which no setter changes), and the default control words of both cameras and the default I2C configuration read back as the documented default settings.", "quantifier": "all register words, all setters and their arguments, all 16 bits", "why_tests_cant": "requires every word and every setter argument", "anchors": ["mlx9064x/src/register.rs: Register::write_mask, default_mlx90640, default_mlx90641, I2cRegister::default"]}
{"id": "C64", "title": "Images ignore failed-pixel flags, corner temperatures and range corrections", "statement": "Two calibrations that differ only in the failed and outlier flags, the corner temperatures, the range corrections and the object sensitivities of the ranges other than the basic one give, for every history of calls, the same results, the same stored values and the same bus traffic. In particular the documented skipping of failed pixels does not happen (refuted): marking pixels as failed changes nothing.", "quantifier": "all pairs of such calibrations, all buses, all histories of calls, all destinations", "why_tests_cant": "independence is a statement about pairs of arbitrary runs", "anchors": ["mlx9064x/src/common.rs: CalibrationData::failed_pixels, outlier_pixels, corner_temperatures, alpha_correction", "mlx9064x/src/calculations.rs: raw_pixels_to_temperatures, raw_ir_to_temperatures", "mlx9064x/src/driver.rs: CameraDriver"]}
{"id": "C65", "title": "Reported temperatures solve the radiation balance", "statement": "Computed in exact arithmetic, the temperature stored for a measured pixel is the one object temperature above absolute zero at which a sensor with that pixel's sensitivity receives the measured signal (Stefan-Boltzmann balance of emitted, reflected and own radiation for the set emissivity, reflected temperature and ambient temperature), with the sensitivity taken at the temperature the uncorrected sensitivity would give; with no signal the object has the ambient temperature.", "quantifier": "all calibration data with positive sensitivity, all settings with positive emissivity, all memory contents and pixels for which such temperatures exist (which signals these are is proved too)", "why_tests_cant": "a test compares a few frames with reference numbers; the meaning of the formula for every signal is algebra", "anchors": ["mlx9064x/src/calculations.rs: t_ar, per_pixel_temperature, sensitivity_correction_coefficient, raw_pixels_to_temperatures", "mlx9064x/src/driver.rs: generate_image_subpage_to"]}
{"id": "C66", "title": "Hotter objects give higher temperatures", "statement": "In exact arithmetic, if two frames differ only in that one pixel's word is larger in the second, that pixel's reported temperature is higher in the second (positive gain, emissivity and sensitivity, and a sensitivity slope that does not outweigh the fourth power).", "quantifier": "all calibration data, settings, frames and pixels with these signs", "why_tests_cant": "monotonicity ranges over pairs of arbitrary frames", "anchors": ["mlx9064x/src/calculations.rs: per_pixel_v_ir, per_pixel_temperature"]}
{"id": "C67", "title": "Raw images are numbers, except from a cleared camera", "statement": "In IEEE binary32, for every EEPROM content whose supply-voltage slope is not zero, every value stored by generate_raw_image_subpage_to is a finite number, provided the ambient temperature that the same call reports lies within +-1024, the frame's gain word is not zero and the emissivity is finite and at least 2^-8 in magnitude. From a camera whose V_PTAT and V_BE words are still zero, the call succeeds but the ambient temperature and every stored value are NaN.", "quantifier": "every EEPROM dump, frame, pixel, resolution, access pattern, emissivity and maths library", "why_tests_cant": "overflow and invalid operations depend on combinations of EEPROM and frame values that no test enumerates", "anchors": ["mlx9064x/src/calculations.rs: per_pixel_v_ir, raw_pixels_to_ir_data, ambient_temperature", "mlx9064x/src/mlx90640/eeprom.rs: from_data", "mlx9064x/src/mlx90641/eeprom.rs: from_data"]}
{"id": "C68", "title": "Flagged pixels are enumerated exactly", "statement": "Iterating over flagged pixels yields exactly the indexes whose flag is set, each once and in increasing order, and any() says whether there is one. For calibration data decoded from EEPROM the failed pixels are exactly those image indexes whose calibration words are zero, and (MLX90640) the outliers those with a non-zero word whose lowest bit is set.", "quantifier": "all flag arrays; every EEPROM dump that decodes", "why_tests_cant": "ranges over all flag patterns and dumps", "anchors": ["mlx9064x/src/common.rs: FlaggedPixels", "mlx9064x/src/mlx90640/eeprom.rs: failed_pixels, outlier_pixels", "mlx9064x/src/mlx90641/eeprom.rs: failed_pixels"]}
{"id": "C69", "title": "RAM addresses convert, compare and add as numbers", "statement": "A RAM address converts to its number and back; every other number is refused and reported; comparison agrees with the numbers; sums are exact and differences are exact unless negative, when they panic (overflow checks) or wrap; every word a frame read transfers lies between Base and End; an Address is sent high byte first.", "quantifier": "both cameras, all names and pairs of names, all 16-bit numbers, all subpages and patterns", "why_tests_cant": "the claim about refused numbers and about frame reads ranges over all numbers and configurations", "anchors": ["mlx9064x/src/common.rs: Address", "mlx9064x/src/util.rs: address_enum_ops", "mlx9064x/src/mlx90640/address.rs: RamAddress", "mlx9064x/src/mlx90641/address.rs: RamAddress"]}
{"id": "C70", "title": "Reported dimensions are those of the camera", "statement": "height() and width() return 24 and 32 for an MLX90640 and 12 and 16 for an MLX90641 after construction and any history of calls, without any bus traffic or change of state; their product is the number of pixels of an image.", "quantifier": "all buses, constructions and histories of calls", "why_tests_cant": "ranges over all histories", "anchors": ["mlx9064x/src/driver.rs: CameraDriver::height, width"]}
{"id": "C71", "title": "Error messages identify the error", "statement": "The message of a checksum error ends in 0x and a four-digit hexadecimal numeral whose value is the offending word, and determines it; Debug of an Address shows it as a hexadecimal numeral without needless zeros, and determines it; the message of a library error wrapped in Error determines the library error; messages of bus errors and library errors never coincide and a bus error's message is the bus's own; Debug also tells failed reads from failed writes; source() returns the wrapped error.", "quantifier": "all errors, all words, all bus error types and their messages", "why_tests_cant": "injectivity ranges over pairs of arbitrary errors and texts", "anchors": ["mlx9064x/src/error.rs: LibraryError, Error, Display, Debug, source"]}
{"id": "C72", "title": "Rounding hardly changes the ambient temperature", "statement": "For every camera whose K_T_PTAT and K_V_DD are not zero and whose alpha_PTAT is at least 8 (on an MLX90640: a whole number; otherwise accurate with respect to alpha_PTAT rounded down, see C44, and if K_T_PTAT is positive the exact value for the rounded constant is strictly warmer), after any history of calls, ambient_temperature() after an image call returns a number within 0.08/|K_T_PTAT| degrees (0.002 for the datasheet's example) of the datasheet formula evaluated exactly on the EEPROM words read by new() and the words of the frame, for every plausible frame (PTAT positive, V_BE not negative, supply voltage influence at most one half). On an MLX90640 with a fractional alpha_PTAT the reported value can be more than 3 degrees off.", "quantifier": "all EEPROM contents, all frames, all histories, all buses, both cameras", "why_tests_cant": "accumulated rounding error has to be bounded for all of the roughly 2^64 combinations of sensor words and all calibrations", "anchors": ["mlx9064x/src/calculations.rs: ambient_temperature, v_ptat_art, delta_v", "mlx9064x/src/driver.rs: CameraDriver::ambient_temperature"]}
{"id": "C73", "title": "Rounding hardly changes raw image values", "statement": "Every value stored by generate_raw_image_subpage_to differs from the documented formula evaluated over the real numbers (same calibration data, settings and frame words) by at most (1/32 + |offset|*(0.14*|K_Ta|/|K_T_PTAT| + 1/80000))/|emissivity|, plus the corresponding amount for the compensation pixel times |TGC|, whenever the frame and the coefficients are in the working range (gain at most 2, T_a within 128 degrees of 25, supply within 1 V of 3.3 V, K_Ta*(T_a-25) at most 1, K_V*(V_DD-3.3) at most 1/2). For the datasheet's pixel this is less than 0.08 counts of about 700.", "quantifier": "all calibrations decoded from EEPROM, all frames in the working range, all pixels, both cameras", "why_tests_cant": "a bound on rounding error over all combinations of sensor words, coefficients and settings", "anchors": ["mlx9064x/src/calculations.rs: raw_pixels_to_ir_data, per_pixel_v_ir, CommonIrData"]}
{"id": "C74", "title": "Rounding hardly changes object temperatures", "statement": "Every temperature stored by generate_image_subpage_to differs from the documented object temperature formula evaluated over the real numbers (same calibration data, settings and frame words) by at most an explicit tolerance (the uncertainties of the raw value, of the background radiation and of the sensitivity, divided by the cube of the object's absolute temperature, plus 1/2000 degree), whenever the frame and the pixel are in the working range (object and surroundings 150-450 / 150-1000 K, emissivity 1/16 to 1, sensitivity 2^-26 to 2^-10) and powi, powf of the mathematical library have a relative error of at most 2^-22 (met by a correctly rounding library). For the datasheet's pixel at 80 degrees this is less than 0.03 degrees. Decoded calibration data always has finite sensitivities and K_sTo.", "quantifier": "all calibrations decoded from EEPROM, all frames and pixels in the working range, all sufficiently accurate mathematical libraries, both cameras", "why_tests_cant": "a bound on rounding error over all combinations of sensor words, coefficients, settings and library implementations", "anchors": ["mlx9064x/src/calculations.rs: raw_pixels_to_temperatures, per_pixel_temperature, t_ar, per_pixel_sensitivity"]}
{"id": "C75", "title": "Accuracy holds for every image of a driver from new() on", "statement": "For a driver returned by new() for a camera whose EEPROM words read in that call have |K_T_PTAT| of at least 1 and a nonzero K_V_DD (on an MLX90641 also alpha_PTAT of at least 8 and a valid V_PTAT_25), after any history of calls on it, successful or failed, every image call that computes an image stores, for each pixel of the subpage in the working range, a value within the tolerance of C73 (raw) or C74 (temperatures) of the documented formula over the reals for the settings in effect and the words the camera delivered in that call.", "quantifier": "all EEPROM contents, histories, buses, image calls, frames and pixels in the working range, both cameras", "why_tests_cant": "quantifies over all histories (cached settings, buffers) and all sensor words", "anchors": ["mlx9064x/src/driver.rs: new, generate_image_if_ready, generate_image_to, generate_image_subpage_to, generate_raw_image_subpage_to", "mlx9064x/src/calculations.rs"]}
{"id": "C76", "title": "Frame-rate example records exactly the subpage changes", "statement": "The example's find_frequency, on any camera, schedule, clock and bus faults, calls last_measured_subpage until it has seen the requested number of changes of the subpage and returns the times taken right after exactly those answers, no more and no fewer; it only reads the status register; the first failing read ends it with that error; while it has not returned, the camera has kept answering with one subpage, and on a camera that always answers with the same subpage it never returns.", "quantifier": "all buses, camera schedules, clocks, fault positions, frame counts, poll bounds", "why_tests_cant": "depends on the interleaving of polls with the camera's free-running frames", "anchors": ["mlx9064x/examples/true-frame-rate.rs: find_frequency", "mlx9064x/src/driver.rs: last_measured_subpage"]}
{"id": "C77", "title": "Frame-rate example's statistics", "statement": "From any non-decreasing list of instants, the example reports the smallest and largest interval, the mean (total time divided by the number of intervals), the most frequent interval (the smallest of them if several), and for an odd number of intervals their median. For an even number it reports half of the upper middle interval instead of the average of the two middle ones, which is below the true median and, unless some interval is at least twice another, below every interval measured. It panics exactly when fewer than two instants were asked for; the default count (ten seconds' worth) is between 5 and 640, so it never panics by default, and is even-interval only at half a frame per second. The frame rate is checked before anything is written to the camera.", "quantifier": "all lists of instants, all frame rates as f32, all counts up to 2^32, all buses", "why_tests_cant": "order statistics over all lists; the program has no tests", "anchors": ["mlx9064x/examples/true-frame-rate.rs: main"]}
{"id": "C78", "title": "What the terminal example prints", "statement": "terminal-temperatures prints 24 rows of 32 (or 12 rows of 16) numbers, row by row. Each is the documented temperature of that pixel from the frame read by the second call if that call found new data and the pixel belongs to the subpage it read, otherwise likewise from the first call, and otherwise 0: if the camera had no new frame at either moment the program prints only zeros and reports no error.", "quantifier": "all cameras, schedules, memory contents and faults, both camera models", "why_tests_cant": "depends on when the camera completes frames relative to the two calls", "anchors": ["mlx9064x/examples/terminal-temperatures.rs: main, print_temperatures"]}
{"id": "C79", "title": "Address argument of the examples", "statement": "The examples accept as address exactly: 0x followed by a hexadecimal numeral in either letter case, or a decimal numeral (leading zeros and a plus sign allowed), with value at most 255; everything else is refused with an error, never a panic.", "quantifier": "all strings", "why_tests_cant": "all strings", "anchors": ["mlx9064x/examples/terminal-temperatures.rs: main", "mlx9064x/examples/true-frame-rate.rs: main"]}
{"id": "C80", "title": "Recorded bus traffic replays", "statement": "What the driver does and returns depends on nothing but the calls made and the answers of the bus: a session (construction, then any calls) whose bus answers were recorded can be replayed from the recording, giving the same results, errors and destination contents and the same requests in the same order, with nothing of the recording left over. Two sessions that get the same answers are identical; all requests go to the address given at construction.", "quantifier": "all buses (also adversarial ones), call sequences, recordings, both camera models, successful and failed constructions", "why_tests_cant": "all call sequences on all buses; a test fixes both", "anchors": ["mlx9064x/src/driver.rs: CameraDriver (all methods)", "mlx9064x/src/register.rs: from_i2c, to_i2c"]}
{"id": "C81", "title": "Cameras sharing a bus do not interfere", "statement": "Two cameras with different addresses on one bus, their drivers constructed and used in any order: each driver returns, stores and sends, and each camera ends up with, exactly what it would if it were alone on the bus.", "quantifier": "all pairs of devices, interleavings of calls, faults, both camera models", "why_tests_cant": "all interleavings and device behaviours", "anchors": ["mlx9064x/src/driver.rs: CameraDriver (all methods)"]}
{"id": "C82", "title": "A failed call can simply be retried", "statement": "On a bus that fills the caller's buffer on success and does not look at its previous contents, a call (or any number of calls) that failed in a read leaves its destination untouched and nothing behind in the driver: everything called afterwards returns, stores and asks what it would, with the camera as it now is, had the failed calls not been made. More generally stale data in the driver's pixel buffer is never seen in a result, a destination or on the bus.", "quantifier": "all such buses, drivers of both models, failing calls, points of failure (half-read frames included) and later call sequences", "why_tests_cant": "depends on where in a frame a transfer breaks off and on all later calls", "anchors": ["mlx9064x/src/driver.rs: CameraDriver, pixel_buffer, generate_*", "mlx9064x/src/common.rs: read_ram"]}
{"id": "C83", "title": "Held data: no torn frames", "statement": "Every call changes only the register bits its documentation names (reset_data_available and generate_image_if_ready the new-data flag, a setter its field, synchronize the three flags of the status register, the others nothing): each write is the word just read from that register with nothing else altered. Hence set_data_hold(true) followed by set_overwrite_enabled(false) puts a camera that implements the documented hold mode into it, no call except the opposite of these two and synchronize ends it, and until then every image (raw or not, of either subpage, read row by row while the camera keeps measuring) and every ambient temperature is that of the one frame in RAM when the hold began; two images of the same subpage with the same settings are identical.", "quantifier": "all cameras that keep RAM while data is held and do anything else whenever they like, both models, all call histories, failed transactions included", "why_tests_cant": "a torn frame depends on when the camera finishes a measurement relative to each transaction of an image", "anchors": ["mlx9064x/src/driver.rs: set_data_hold, set_overwrite_enabled, reset_data_available, generate_*", "mlx9064x/src/register.rs: StatusRegister, ControlRegister", "mlx9064x/src/common.rs: read_ram"]}
{"id": "C84", "title": "Bus traffic of every call is bounded", "statement": "Each call uses the bus at most as much as its kind allows, also when transfers fail: settings kept by the driver cost nothing, reading a setting exactly one register read, changing one at most a read and a write, an image one frame (6 transactions and 1570 wire bytes for the MLX90640 in chess pattern, 17 and 846 interleaved, 11 and 438 for the MLX90641) plus at most a status read and write, synchronize a read, a write and its polls; a computed image costs exactly that. Construction costs at most the EEPROM dump and one register read. A history costs at most the sum.", "quantifier": "all buses and fault patterns, both models, all calls and call histories", "why_tests_cant": "an upper bound over all buses, faults and histories", "anchors": ["mlx9064x/src/driver.rs: CameraDriver (all methods)", "mlx9064x/src/common.rs: read_ram", "mlx9064x/src/mlx90640/mod.rs, mlx90641/mod.rs: pixel_ranges"]}
{"id": "C85", "title": "The reference camera's log is what the driver did", "statement": "After clear_recent_operations, and whatever driver calls are made and whatever frames and flags the test supplies in between, recent_operations lists exactly the last 32 bus transactions of the driver, the newest first, each with its kind, its memory address and its number of data bytes. Clearing the log changes nothing else: every later read and write is answered as it would have been. A refused write is never in the log and leaves the camera untouched; a refused read may be in it once.", "quantifier": "both models, all call histories interleaved with all frame and flag updates, all states of the camera when the log is cleared", "why_tests_cant": "the log is what the tests themselves trust; its agreement with the bus must hold for every history, including ones longer than the queue", "anchors": ["mlx9064x-test-data/src/i2c_mock.rs: add_operation, recent_operations, clear_recent_operations, write, write_read"]}
{"id": "C86", "title": "The frame rates true-frame-rate prints are right", "statement": "For every duration from one nanosecond to the longest representable, the frequency true-frame-rate prints is a finite binary64 number within a relative error of 2^-51 of 10^9 / nanoseconds (a zero duration prints infinity). A longer duration never prints a higher frequency (below 2^53 seconds), so in every report the first number (min) is the highest and the second (max) the lowest rate, with the mean, the mode and, for an odd number of durations, the median between them.", "quantifier": "all durations; all sequences of instants in order with 2 to 2^32 entries", "why_tests_cant": "rounding error and monotonicity over all durations", "anchors": ["mlx9064x/examples/true-frame-rate.rs: as_frequency, main"]}
{"id": "C87", "title": "Worn MLX90641 EEPROM: one bad bit per word changes nothing, ever", "statement": "Let two MLX90641 behave alike except for what their EEPROM reads as, and let every word the driver uses be undamaged in the first and have at most one flipped bit in the second (the other words may hold anything). Then new gives the same driver (or the same failure) on both, every history of calls returns the same results and leaves the same images, and it leaves both cameras in the same state. After construction no call reads the EEPROM (either camera model).", "quantifier": "all buses and camera behaviours, all EEPROM contents and all patterns of at most one flipped bit per used word, all histories of calls", "why_tests_cant": "damage patterns (17^768) times call histories cannot be enumerated; that nothing later depends on the raw words is a statement about all calls", "anchors": ["mlx9064x/src/mlx90641/hamming.rs", "mlx9064x/src/mlx90641/eeprom.rs: from_data", "mlx9064x/src/driver.rs: new and all methods"]}
{"id": "C88", "title": "A damaged pixel word is confined to its pixel", "statement": "Let two cameras behave alike except that in the EEPROM the word (MLX90640) or the four words (MLX90641) of one pixel differ, and let drivers be opened on both. Then every history of calls returns the same results on both, in particular the same errors and ambient temperatures; every image, raw or in degrees, is equal at all positions but that pixel's; and both cameras are left in the same state. For the MLX90640 opening the damaged camera never fails with an error: in a build with overflow checks it can panic, otherwise it succeeds.", "quantifier": "all buses and camera behaviours, all EEPROM contents, every pixel and every replacement value, all histories of calls", "why_tests_cant": "independence of 767 of 768 pixels from the value of a word is a statement about pairs of runs over all contents and histories", "anchors": ["mlx9064x/src/mlx90640/eeprom.rs: from_data", "mlx9064x/src/mlx90641/eeprom.rs: from_data", "mlx9064x/src/calculations.rs: raw_pixels_to_ir_data, raw_pixels_to_temperatures, raw_ir_to_temperatures", "mlx9064x/src/driver.rs"]}
{"id": "C89", "title": "Polling a free-running camera loses, repeats and tears no frame", "statement": "Let a camera measure continuously, frame n being finished at time T(n), also in the middle of a bus transaction, and let a program call generate_image_if_ready again and again into the same destination. If the time between two consecutive frames exceeds two polling pauses plus the time of the bus transactions of one frame and of one register write, then every call succeeds, each frame is delivered by exactly one call, in order, and the values stored are the documented temperatures of exactly that frame (no frame is lost, delivered twice or mixed with another); when a call returns, every frame finished before it began has been delivered; every frame is eventually delivered; each pixel shows the latest delivered frame that measured it, so with alternating subpages two deliveries give a full picture.", "quantifier": "all cameras (MLX90640, MLX90641), calibrations, settings, both access patterns, all films (frame times, subpages, memory contents), all timings and interleavings of frame completion with transactions that meet the spacing condition, any number of calls, both build profiles", "why_tests_cant": "A test with a mock runs one schedule; the claim is about every moment at which a frame can be finished relative to the status read, the RAM reads and the acknowledging write, for any number of calls.", "anchors": ["mlx9064x/src/driver.rs: CameraDriver::generate_image_if_ready, data_available, reset_data_available, read_ram", "mlx9064x/src/register.rs: StatusRegister"]}
{"id": "C90", "title": "synchronize gets a program in step with a free-running camera", "statement": "On a camera that measures continuously, whatever frames were missed before and whether or not the new-data flag was set: synchronize returns, and when it does exactly one frame is outstanding, the newest one, finished after synchronize was called. The first generate_image_if_ready afterwards delivers exactly that frame, and further polling delivers every later frame exactly once, in order and untorn (spacing of frames as in C89, with twice the polling pause).", "quantifier": "all cameras, calibrations and settings, all films (frame times, subpages, memory contents), every state of flag and frame counter before the call, every moment a frame may be finished during the status read, the request write and the polls, any number of polls and later calls", "why_tests_cant": "The race between a frame being finished and the read-modify-write of the status register, or between two polls, has arbitrarily many schedules; a mock test runs one.", "anchors": ["mlx9064x/src/driver.rs: CameraDriver::synchronize, generate_image_if_ready", "mlx9064x/src/register.rs: StatusRegister::reset_new_data, set_start_measurement, set_overwrite_enabled"]}
{"id": "C91", "title": "The example programs check their whole command line before touching the camera", "statement": "terminal-temperatures and true-frame-rate refuse a wrong number of arguments, an address that is not a byte (decimal, or hexadecimal after 0x), a bus that cannot be opened, a frame rate or frame count that is not a number and a model other than 640 or 641, each with its own error, the first in this order; a refused command line puts nothing on any bus (a wrong number of arguments, a wrong address does not even open it). An accepted one runs the driver of that model at that address on that bus; everything the program then sends is addressed to that device and only reads the camera's memories or writes its status and control registers. Built without overflow checks terminal-temperatures never panics, and true-frame-rate only if asked for fewer than two frames (or more than 2^32).", "quantifier": "all argument lists (any number, any strings), all buses and failures to open one, all float parsers, all EEPROM contents, schedules and faults, all clocks", "why_tests_cant": "There are infinitely many command lines and buses; the order of the checks and that nothing is sent before the last of them is a statement about all of them.", "anchors": ["mlx9064x/examples/terminal-temperatures.rs: main", "mlx9064x/examples/true-frame-rate.rs: main, find_frequency"]}
{"id": "C92", "title": "Settings changed behind the driver's back", "statement": "Whatever the camera does, also if it is reset or reconfigured by someone else, the access pattern and resolution correction used for images are always those of the last control register word that the driver read or tried to write. Image calls, synchronize and the other calls that are not about a control register field never access that register, so they never notice such a change, however many are made: images keep being read and computed with the old pattern and resolution, without an error. Any one call that is about a control register field, and gets as far as reading it, brings the driver up to date.", "quantifier": "all buses and cameras (no assumption on how the control register behaves), all histories and faults from construction on, all calls", "why_tests_cant": "The change can happen between any two transactions of any history; a test exercises one history on a mock whose register never changes by itself.", "anchors": ["mlx9064x/src/driver.rs: update_control_register, control_register, set_control_register, set_register_field!, generate_image_if_ready, synchronize"]}
{"id": "C93", "title": "The printed table shows the temperatures to a hundredth of a degree", "statement": "What terminal-temperatures writes is an empty line, one line per row of the picture and an empty line; the words of a line are the pixels of that row from left to right, as many as the camera has columns, and each is the pixel's temperature rounded to the nearest hundredth of a degree (the even one of two equally near) with its sign, without leading zeros (NaN, inf or -inf if it is not a finite number), filled up to four characters with spaces on the left and followed by two spaces. The number can be read off the text unambiguously, and a warmer pixel is never printed as a colder number.", "quantifier": "all single precision numbers (zeros, subnormals, infinities, NaN included), all pictures of any size, all buses and both camera models", "why_tests_cant": "There are 2^32 single precision numbers and unboundedly many pictures; ties and halfway cases of the rounding are rare.", "anchors": ["mlx9064x/examples/terminal-temperatures.rs: main, print_temperatures"]}
{"id": "C94", "title": "The documented recipe: two calls, a sleep between them", "statement": "Two calls of generate_image_if_ready on one buffer with a sleep between them, on a camera that measures on its own, no frame being finished during either call: each call says truly whether there is a new frame, takes the latest frame entire and marks it as read; each pixel then shows the latest of the two frames that measured it, else what the buffer held before. On a regular camera with alternating subpages a sleep of exactly k frame periods, whenever it begins, lets exactly k frames finish, so after a first successful call the picture is complete if k is odd, in particular with the documentation's sleep of one frame period, and if k is even half of an MLX90640 picture is left as it was, without an error: terminal-temperatures, which sleeps half a second, completes the picture at the default 2 Hz but not at 4 to 64 Hz.", "quantifier": "all films (times, subpages and memory contents of the frames), all moments of the calls, all lengths of the sleep, both camera models, all initial contents of the buffer", "why_tests_cant": "The claims relate the program's calls to the camera's own clock at every phase; a test with a mock has no clock.", "anchors": ["mlx9064x/src/lib.rs: crate documentation, High-Level API", "mlx9064x/examples/terminal-temperatures.rs: main", "mlx9064x/src/driver.rs: generate_image_if_ready"]}
{"id": "C95", "title": "Only object temperatures depend on the mathematical library", "statement": "The crate is built with std's or with libm's mathematical functions (feature flags), for many targets. Provided both libraries have exact powers of two at integers, two such programs behave alike: decoding any EEPROM dump of either camera gives bit for bit the same calibration data or the same error; constructing a driver makes the same I2C transfers and gives the same driver or error; any sequence of calls makes the same transfers, returns the same results (including the ambient temperature) and stores bit for bit the same raw images; only the stored object temperatures may differ, in their values and not in their number, and they are equal too if the libraries agree about cubes, fourth powers and fourth roots.", "quantifier": "all pairs of mathematical libraries, all EEPROM dumps, all buses and devices, all sequences of calls and their arguments, debug and release builds", "why_tests_cant": "Tests run with one library on one host, on a few dumps and frames.", "anchors": ["mlx9064x/Cargo.toml: features std, libm", "mlx9064x/src/calculations.rs: ambient_temperature, t_ar, per_pixel_temperature, raw_pixels_to_ir_data", "mlx9064x/src/mlx90640/eeprom.rs: from_data", "mlx9064x/src/mlx90641/eeprom.rs: from_data", "mlx9064x/src/driver.rs"]}
{"id": "C96", "title": "Several programs may use one camera by turns", "statement": "Several users, each with his own driver or a clone of one, call methods by turns on one camera, in any order. Polling with generate_image_if_ready a camera that measures slowly enough: no call fails, every frame is given, entire and in order, to exactly one call of one user, and each user's destination shows in each pixel the latest of the frames he was given that measured it, else what it held before; so nobody sees the others' frames, and with alternating subpages a user who happens to get every second frame never completes his picture. Settings: whatever calls are made, as long as no write of the control register fails, the camera's settings are those of all successful setters in the order of the calls, none lost, each having changed its own field only; failed calls change nothing and a successful getter returns what was set last, by whomever. This needs turns: if one user's successful set_resolution falls between the two transactions of another's successful set_frame_rate, the resolution is lost without an error.", "quantifier": "all numbers of users, all orders of turns and sequences of calls, all films and timings within the limit, all buses whose control register changes only by being written, all initial destinations", "why_tests_cant": "There is an unbounded number of schedules of the users' calls relative to each other and to the camera's clock.", "anchors": ["mlx9064x/src/driver.rs: CameraDriver (derive Clone), generate_image_if_ready, set_frame_rate, set_resolution, set_use_subpages, set_data_hold, set_subpage_repeat, set_subpage, set_access_pattern and their getters"]}
{"id": "C97", "title": "Rounding never reverses the order of two measurements of a pixel", "statement": "Take two frames that differ only in the raw value of one pixel. With f32 arithmetic, a gain that is not negative and a positive emissivity, the larger raw value never gives the smaller value in a raw image. Nor does it give the lower temperature in a temperature image, provided the pixel's sensitivity is not negative and is positive after its correction for the object's temperature, both temperatures are numbers, and the signal is on the side where the correction of the sensitivity works in the same direction: not negative (an object as warm as its surroundings or warmer) if the sensitivity falls with the object's temperature, not positive if it rises, any if it is constant. Of the mathematical library only this is assumed: the fourth root is not decreasing and is a number only for numbers that are not negative, and cubes of such numbers are not negative; no accuracy.", "quantifier": "all calibration data of either model, all settings, all pairs of frames that differ in one pixel, both subpages, all mathematical libraries with that property", "why_tests_cant": "There are about 2^31 pairs of raw values per pixel and unboundedly many calibrations and surroundings; each intermediate result is rounded.", "anchors": ["mlx9064x/src/calculations.rs: per_pixel_v_ir, per_pixel_temperature, raw_pixels_to_ir_data, raw_ir_to_temperatures"]}
{"id": "C98", "title": "The emissivity and reflected temperature settings act in the right direction", "statement": "In exact arithmetic, take one frame and compute its temperatures twice, with two emissivities and everything else the same. With the smaller emissivity a pixel that shows an object hotter than its surroundings (the reflected temperature in effect) shows it hotter still, and one that shows an object colder than its surroundings shows it colder still; a pixel that shows exactly the temperature of the surroundings shows it with every emissivity (constant sensitivity). With an emissivity below 1 a higher reflected temperature gives a lower object temperature. The first and the last are for signals and sensitivity slopes of opposite signs (or one of them zero), so that the correction of the sensitivity does not work against the change, and for pixels whose signal can be explained by some temperature with both settings.", "quantifier": "all calibration data, frames, pixels with positive sensitivity, pairs of positive emissivities, pairs of reflected temperatures above absolute zero", "why_tests_cant": "It relates the results of two computations for a continuum of settings and signals.", "anchors": ["mlx9064x/src/calculations.rs: per_pixel_v_ir, t_ar, per_pixel_temperature", "mlx9064x/src/driver.rs: set_emissivity, set_reflected_temperature"]}
{"id": "C99", "title": "Signals that no object can give show as NaN, not as a temperature", "statement": "With f32 arithmetic, a pixel whose signal is so negative that even an object at absolute zero would give more, by more than about a millionth (the exact balance then has no solution, C65), gets NaN in a temperature image, never a number; so does a pixel whose raw image value or background radiation is NaN. Conversely, a stored temperature that is a number belongs to a signal that some object could give, up to a millionth of the background. This is for sensitivities between 2^-26 and 2^-10 and signals and backgrounds up to 2^40, and for every mathematical library that computes third and fourth powers to two units in the last place and gives NaN for the fourth root of a negative number or NaN.", "quantifier": "all calibration data, settings, frames and pixels in that range, all such libraries", "why_tests_cant": "A wrong sign of a rounded difference for one combination of inputs would show a plausible temperature.", "anchors": ["mlx9064x/src/calculations.rs: per_pixel_temperature, raw_ir_to_temperatures, raw_pixels_to_temperatures"]}
{"id": "C100", "title": "Rounding never reverses the order of two ambient temperatures", "statement": "For every driver made by new(), after any histories: of two image calls whose frames have the same supply voltage reading, if the second frame's PTAT reading is not smaller and its V_BE reading not larger (a sensor not colder), the ambient temperature reported after the second call is not lower than after the first, in spite of the roundings of the f32 computation; both are numbers. This is for EEPROMs with alpha_PTAT at least 8 (and whole on an MLX90640, see C44), K_T_PTAT positive and K_V_DD not zero, for plausible frames (C72) whose V_BE reading is at least alpha_PTAT/64 of the PTAT reading.", "quantifier": "all EEPROM contents, buses, histories, image calls and frames in that range, both cameras, any mathematical library", "why_tests_cant": "Numerator and denominator of the sensor's ratio both grow with the reading and are rounded separately; a reversal would show only for particular pairs among billions of readings.", "anchors": ["mlx9064x/src/calculations.rs: v_ptat_art, ambient_temperature, delta_v", "mlx9064x/src/driver.rs: ambient_temperature"]}
{"id": "C101", "title": "A value that is a number was computed from numbers", "statement": "If an image call stores a finite number for a pixel, then the gain reading of the frame was not zero, the ambient temperature reported after the call, the supply voltage and the gain are finite, the constants K_V_DD and K_T_PTAT are not zero (K_T_PTAT not NaN either), and the emissivity in use was neither zero nor NaN; if it is a temperature and the emissivity is not 1, the reflected temperature setting, if any, was finite. So a bad setting, a dead channel or a missing constant never produces a plausible value: the pixel shows NaN or an infinity. For every mathematical library whose fourth root and fourth power of infinities and NaN are not finite.", "quantifier": "all calibration data, settings, frames, pixels, drivers, image calls and such libraries", "why_tests_cant": "Infinities can cancel (a number divided by an infinity is zero, a finite number) for combinations of inputs no test lists.", "anchors": ["mlx9064x/src/calculations.rs: per_pixel_v_ir, t_ar, per_pixel_temperature, CommonIrData::new", "mlx9064x/src/driver.rs: override_emissivity, set_reflected_temperature, generate_image_subpage_to, generate_raw_image_subpage_to"]}
{"id": "C102", "title": "The documented table of maximum frame rates is right, but for one entry", "statement": "With nine bus clock cycles per byte and at most three per transaction for start and stop conditions: at every bus speed of the documented table (100 kHz, 400 kHz, 1 MHz), for both cameras and both access patterns, a program that polls with generate_image_if_ready and spends at most 650 cycles between calls gets every frame, once, in order and untorn, at every frame rate up to the documented maximum; above it, however it polls, at least one frame in nine is lost. Except that the table promises too little for the MLX90640 in interleaved pattern at 1 MHz: it can be read at 64 Hz, not only at 32 Hz. For any other bus clock and pause: every frame arrives if the frame period is longer than two pauses and 14310 (MLX90640 in chess pattern), 7827 (MLX90640 interleaved) or 4137 (MLX90641) cycles; and each frame delivered takes at least 14229, 7713 or 4041 cycles.", "quantifier": "all bus speeds (and those of the table), frame rates, films, interleavings of frame completion with bus transactions, calibrations, settings, numbers of calls", "why_tests_cant": "The unit tests run on a mock without time; the table comes from a spreadsheet, and that no frame is lost must hold for every moment a frame may be finished.", "anchors": ["mlx9064x/src/register.rs: FrameRate (documentation table)", "mlx9064x_timing.ods", "mlx9064x/src/driver.rs: generate_image_if_ready", "mlx9064x/src/mlx90640/mod.rs: pixel_ranges", "mlx9064x/src/mlx90641/mod.rs: pixel_ranges"]}
{"id": "C103", "title": "The driver's way of reading a frame is the shortest, up to a few bytes", "statement": "Whatever sequence of bus transactions fetches every RAM word an image of a subpage is computed from (the subpage's pixels, VBE, compensation pixel, gain, PTAT and VDD), it takes at most 8 bytes fewer on the wire (address bytes included) than generate_image_subpage_to or generate_raw_image_subpage_to with the same access pattern: 6 and 8 for the MLX90640 in chess pattern (subpages 0 and 1), 2 and 6 in interleaved pattern and for the MLX90641. For the pixels alone the driver's reads (all at once in chess pattern, row by row in interleaved pattern, the subpage's half of the RAM for the MLX90641) are the shortest possible, except that MLX90640 chess subpage 1 could save 4 bytes. The saving is attained by one read plan for each case.", "quantifier": "all sequences of bus transactions that fetch the needed words, both cameras, both subpages, both access patterns, all buses, calibrations and settings", "why_tests_cant": "There are infinitely many other ways to split the reads; tests can only count the bytes of the one that is implemented.", "anchors": ["mlx9064x/src/mlx90640/mod.rs: pixel_ranges (comment on efficiency)", "mlx9064x/src/mlx90641/mod.rs: pixel_ranges", "mlx9064x/src/driver.rs: generate_image_subpage_to, generate_raw_image_subpage_to", "mlx9064x/src/util.rs: is_pixel_valid"]}
{"id": "C104", "title": "Calibration data supplied by the user", "statement": "With new_with_calibration and any calibration data (a user's own CalibrationData), complete or not, and a pixel buffer of any size: an image call that computes an image stores exactly the documented value for the pixels of the subpage for which every needed per-pixel value is supplied (offset, K_V, K_Ta, access pattern term, and alpha for temperatures), at their own positions, and leaves all other elements of the destination as they were; the reported ambient temperature is the documented one. A call panics only if the buffer is smaller than the bytes of the frame, or the slope of the basic temperature range is missing (temperatures only), or the supply voltage difference overflows (debug build only); then nothing is stored and nothing is written to the bus. A driver made with calibration data saved from an earlier session is the driver new would have made from the same EEPROM and control register, without the EEPROM transaction, and behaves identically in every sequence of calls as long as the camera answers identically.", "quantifier": "all calibration data including those with missing values, buffer sizes, buses, image calls and destinations; all sequences of calls after construction", "why_tests_cant": "Tests use the complete calibration data of one camera; users may implement CalibrationData with iterators of any length.", "anchors": ["mlx9064x/src/lib.rs: documentation (Low-Level API)", "mlx9064x/src/common.rs: CalibrationData", "mlx9064x/src/driver.rs: new_with_calibration, new", "mlx9064x/src/calculations.rs: raw_pixels_to_ir_data, raw_pixels_to_temperatures"]}
{"id": "C105", "title": "The documented low-level example computes the driver's images", "statement": "The program lib.rs names as the example of the low-level interface (the raw_to_temperatures benchmark: control register, calibration, then for each frame status register, read_ram, and either raw_pixels_to_temperatures or raw_pixels_to_ir_data followed by raw_ir_to_temperatures) has, on a camera with the same EEPROM and control register in chess pattern, the settings of a driver made by new; and whatever has happened on the bus since, every frame it computes, with either function, is exactly what the driver's generate_image_to stores (temperatures, ambient temperature, bus traffic), and it panics exactly when the driver's call returns an error or panics. It always assumes the chess pattern: on a camera in interleaved pattern it fills other pixels than the driver.", "quantifier": "all buses and camera behaviours, EEPROM contents, control register values, float implementations, build profiles", "why_tests_cant": "The benchmark runs on two recorded frames and checks nothing; equality must hold for every camera and frame.", "anchors": ["mlx9064x/benches/raw_to_temperatures.rs: criterion_benchmark", "mlx9064x/src/lib.rs: documentation (Low-Level API)", "mlx9064x/src/common.rs: read_ram", "mlx9064x/src/calculations.rs: raw_pixels_to_temperatures, raw_pixels_to_ir_data, raw_ir_to_temperatures"]}
{"id": "C106", "title": "read_ram for every HEIGHT and every buffer", "statement": "read_ram, called directly: if HEIGHT is smaller than the number of pixel reads (1 for the MLX90640 in chess pattern, 12 in interleaved pattern, 6 for the MLX90641) it panics before any bus transaction and leaves the buffer alone; otherwise HEIGHT has no influence. It then returns the frame's RAM data after all documented reads have succeeded, with every transferred pixel's word at its place in the buffer and the other bytes as they were; or the error of the first failing read, which is its last transaction; or, exactly when the buffer is shorter than the bytes of the frame, panics. With the camera's own HEIGHT and a buffer for the whole image it never panics.", "quantifier": "all values of HEIGHT, buffers, buses, fault patterns, both cameras, subpages and access patterns", "why_tests_cant": "The driver always uses one HEIGHT and one buffer size per camera; the public function accepts all.", "anchors": ["mlx9064x/src/common.rs: read_ram", "mlx9064x/src/calculations.rs: RamData::from_i2c", "mlx9064x/src/mlx90640/mod.rs: pixel_ranges", "mlx9064x/src/mlx90641/mod.rs: pixel_ranges"]}
{"id": "C107", "title": "Crash points: a program stopped in the middle of anything", "statement": "Let the camera be reachable for only n bus transactions (the program is stopped, or the cable pulled, after the n-th; what the program does afterwards and what answers it then gets is arbitrary). Then the calls completed before return what they would have returned anyway; of the interrupted call the camera has seen only reads (only synchronize may already have made its one write); the control register is left exactly as some whole number of calls leaves it, including every call that was completed and none that had not begun; a driver made then has the access pattern and resolution correction the old one had after those calls; and if generate_image_if_ready was interrupted before its last transaction, a frame that was flagged as new is still flagged, and the next generate_image_if_ready of any driver does not report that there is no new data.", "quantifier": "all crash points n, histories of calls, buses and answers after the crash, cameras, float implementations, build profiles", "why_tests_cant": "Every history has as many crash points as transactions.", "anchors": ["mlx9064x/src/driver.rs: CameraDriver (all methods), new_with_calibration, generate_image_if_ready, set_register!"]}
{"id": "C108", "title": "A little noise in a pixel's measurement changes its temperature little", "statement": "Computed without rounding, if in two frames of the same conditions (supply voltage, sensor temperature, gain and compensation pixel words) a pixel's raw word differs by dn counts, then that pixel of the raw image differs by exactly dn times the gain over the emissivity (dv), and its temperature by at most |dv| (1 + |k v| / (4 S T0^3)) / (4 S' T^3), where S and S' are the pixel's sensitivities with and without the change, k the sensitivity slope, v its signal, T0 and T lower bounds in kelvin on the first estimates and the results. For a driver returned by new, with binary32 arithmetic: in any two image calls at any two points of its life with the same settings, whose frames are of the same conditions and in the working range of C73 and C74, a pixel's stored values differ by at most |dv|, for temperatures |dv| / (3 alpha T^3) (1 + |k v / alpha| / (3 T^3)), plus the two rounding tolerances.", "quantifier": "all calibrations, frames of either camera, pixels, settings, differences dn, wherever an object temperature explains the signals; for the driver all EEPROM contents, histories, buses and pairs of calls, frames and pixels in the working range", "why_tests_cant": "A bound on the amplification of noise for every calibration and every scene; tests sample a few frames.", "anchors": ["mlx9064x/src/calculations.rs: raw_pixels_to_ir_data, raw_ir_to_temperatures, per_pixel_temperature"]}
{"id": "C109", "title": "Powers are accurate and the same on every build", "statement": "The crate takes third and fourth powers with powi, which is the compiler runtime's routine when built with std and num_traits' when built with libm. Both give the mathematical power for every base and exponent if nothing is rounded, and in binary32 they give the same float as each other, bit for bit, for every float and every non-negative exponent; third and fourth powers have a relative error of at most 2^-22 wherever the power is in range, cubes keep their sign and powers of infinities and NaN are never numbers. So what C74, C75, C97, C101 and C108 assume of the library holds as soon as its fourth root does its part, and two programs of either build whose fourth roots are equal are indistinguishable: the same I2C transfers, results and stored images, temperatures included.", "quantifier": "all floats and exponents, both routines, all libraries with such a powi, all buses, drivers and sequences of calls", "why_tests_cant": "Bit-for-bit equality and error bounds over all floats, and the equality of two builds over all call sequences.", "anchors": ["mlx9064x/src/calculations.rs: t_ar, per_pixel_temperature (powi, powf)", "mlx9064x/Cargo.toml: features std, libm"]}
{"id": "C110", "title": "Rounding does not merge the counts of a pixel", "statement": "For a driver returned by new for a camera with usable temperature-sensor constants: take any two successful generate_raw_image_subpage_to calls for the same subpage at any two points of its life, with the same settings in effect, whose frames have the same supply voltage, sensor temperature, gain and compensation pixel words and are in the working range of C73 (the other pixels may differ arbitrarily). Then a pixel's two values differ by (z' - z) times the gain over the emissivity (z, z' its signed raw words) up to a sixth of a count over the emissivity, however large its offset and coefficients; equal words give the identical float; and if the gain is more than 1/6 and the emissivity positive, a larger word gives a strictly larger value: no two counts are merged by rounding. Without a lower bound on the gain this is false.", "quantifier": "all EEPROM contents of either camera, histories, buses, mathematical libraries, settings, frames in the working range, pixels and pairs of raw words", "why_tests_cant": "A strict order on all pairs of words over all calibrations and settings; the rounding errors of five operations have to be bounded together.", "anchors": ["mlx9064x/src/calculations.rs: per_pixel_v_ir, raw_pixels_to_ir_data, CommonIrData", "mlx9064x/src/driver.rs: generate_raw_image_subpage_to"]}
{"id": "C111", "title": "Debug and release builds do the same, unless the debug build stops at an overflow", "statement": "Decoding any EEPROM contents (any bytes, any length, either camera), creating a driver with new, and every call on it give exactly the same result, destination slice, stored state and bus transactions in a build with overflow checks and in one without, except where the former panics. When a call panics in the debug build it is one of the four image methods; the destination, the stored ambient temperature and all settings are as before the call, and the transactions made are an initial part of those the release build makes. So for any history in which no call of the debug build panics the two builds cannot be told apart; otherwise they agree up to the first panic. The same holds of the two example programs from the command line on and of the low-level interface as the benchmark uses it: a release build never does something else silently where the debug build goes on.", "quantifier": "all byte sequences, both cameras, all buses, driver states, calls, histories and command lines", "why_tests_cant": "Equality of two builds over all inputs and histories; tests run in one profile and overflow only on extreme EEPROM contents and supply readings.", "anchors": ["mlx9064x/src/mlx90640/eeprom.rs: from_data", "mlx9064x/src/mlx90641/eeprom.rs: from_data", "mlx9064x/src/common.rs: alpha_corr_n", "mlx9064x/src/calculations.rs: delta_v", "mlx9064x/src/driver.rs: CameraDriver"]}
{"id": "C112", "title": "The datasheet's camera is accurate over a whole range of operating conditions", "statement": "For an MLX90640 whose EEPROM holds the contents of the datasheet's worked example, and every frame whose auxiliary words lie in an explicit range (V_PTAT positive, V_BE between 7 and 25 times V_PTAT -- ambient temperatures between -84 and 125 degrees --, the supply reading within 2534 of its 3.3 V value, the gain word at least 3192), after any history of calls: every image call stores an ambient temperature within 0.002 degrees of the datasheet's formula over the real numbers, and in a raw image, with emissivity between 1/256 and 2 in magnitude and the ADC at the calibrated or a finer resolution, every one of the pixels of the subpage is a finite number within 0.08 / |emissivity| counts of the documented formula. All hypotheses of the general accuracy theorems follow from the range, for all 768 pixels.", "quantifier": "all frames in the range, all pixels, both subpages and patterns, all settings in the range, all buses, addresses and histories of calls", "why_tests_cant": "A bound over about 2^60 frames and all histories; tests compare a few frames with a tolerance.", "anchors": ["mlx9064x/src/driver.rs: CameraDriver::generate_raw_image_subpage_to", "mlx9064x/src/calculations.rs: raw_pixels_to_ir_data, ambient_temperature, delta_v", "mlx9064x/src/mlx90640/eeprom.rs: Mlx90640Calibration::from_data", "mlx9064x-test-data/src/eeprom_data.rs"]}
{"id": "C113", "title": "The datasheet's camera measures everyday temperatures to a third of a degree", "statement": "For an MLX90640 whose EEPROM holds the contents of the datasheet's worked example, emissivity 1, the ADC at the calibrated or a finer resolution and any reflected temperature between -100 and 150 degrees (or none), whenever V_BE is between 10.25 and 14.25 times V_PTAT (about 0 to 60 degrees ambient) and the supply and gain words are in the range of C112: in every temperature image, after any history of calls, each pixel of the subpage that sees an object of 0 to 300 degrees (before the sensitivity correction) holds a finite number within 0.3 degrees of the datasheet's formula over the real numbers. The mathematical library is assumed accurate to two units in the last place.", "quantifier": "all frames in the range, all pixels of both subpages and patterns, all image calls, all buses, addresses and histories of calls", "why_tests_cant": "A bound over all frames, pixels and histories; the project's tests compare one pixel.", "anchors": ["mlx9064x/src/driver.rs: CameraDriver::generate_image_subpage_to, generate_image_to, generate_image_if_ready", "mlx9064x/src/calculations.rs: raw_ir_to_temperatures, per_pixel_temperature", "mlx9064x/src/mlx90640/eeprom.rs: Mlx90640Calibration::from_data", "mlx9064x-test-data/src/eeprom_data.rs: mlx90640_datasheet_eeprom"]}
{"id": "C114", "title": "The MLX90641 datasheet's camera is accurate over a whole range of operating conditions", "statement": "For an MLX90641 whose EEPROM holds the contents of the datasheet's worked example, after any history of calls: for every frame with V_PTAT positive, V_BE between 7 and 25 times V_PTAT (about -84 to 125 degrees), the supply reading within 2508 of its 3.3 V value and the gain word at least half the calibrated one, every image call stores an ambient temperature within 0.002 degrees of the datasheet's formula over the reals, and every pixel of a raw image (emissivity 1/256 to 2, calibrated or finer resolution) is a finite number within 0.06 / |emissivity| of the documented value. With V_BE between 10.25 and 14.25 times V_PTAT (about 0 to 60 degrees), emissivity 0.9 to 1 (the camera's own is 0.949) and no reflected temperature set, each pixel of every temperature image that sees an object of 0 to 300 degrees (before the sensitivity correction) is a finite number within 0.2 degrees of the documented temperature, given a mathematical library accurate to two units in the last place.", "quantifier": "all frames in the range, all 192 pixels, both subpages, all settings in the range, all image calls, buses, addresses and histories of calls", "why_tests_cant": "A bound over all frames, pixels and histories; the project's tests compare single values.", "anchors": ["mlx9064x/src/driver.rs: CameraDriver::generate_raw_image_subpage_to, generate_image_subpage_to, generate_image_to, generate_image_if_ready", "mlx9064x/src/calculations.rs: raw_pixels_to_ir_data, raw_ir_to_temperatures, per_pixel_temperature", "mlx9064x/src/mlx90641/eeprom.rs: Mlx90641Calibration::from_data", "mlx9064x-test-data/src/eeprom_data.rs: mlx90641_datasheet_eeprom"]}
