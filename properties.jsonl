{"id": "C01", "title": "Encrypt then decrypt returns the plaintext, for any chunking on either side", "statement": "For every password hash and salt of the hash's length and every list of chunks, each shorter than 2^31 bytes, feeding the chunks to an encrypting block chain and then feeding its result, cut into any other chunks, to a decrypting block chain built with the same hash, password hash and salt yields exactly the concatenation of the original chunks.", "quantifier": "every hash function with the right output size, every key, salt, plaintext, and every way to split the plaintext and the ciphertext into addData calls", "why_tests_cant": "the number of plaintexts and of splits is unbounded; block boundaries and partially filled last blocks give infinitely many cases", "anchors": ["src/blockchain.cpp:BlockChain::addData", "src/blockchain.cpp:BlockChain::getResult", "src/blockchain_encrypt.cpp:EncryptBlockChain::addBlock", "src/blockchain_decrypt.cpp:DecryptBlockChain::addBlock", "src/block_encrypt.cpp", "src/block_decrypt.cpp", "include/blockchain.h:SaltIterator"]}
{"id": "C02", "title": "Encryption result does not depend on how the data is split or which addData overload is used", "statement": "The result of a block chain depends only on the concatenation of the chunks passed to addData (each below 2^31 bytes): by-reference, unique_ptr and stream overloads, in any mixture and any split that contains at least one call, give the same bytes.", "quantifier": "all chunk lists with equal concatenation, all mixtures of overloads, encrypting and decrypting chains", "why_tests_cant": "unboundedly many splits; a test picks a few", "anchors": ["src/blockchain.cpp:BlockChain::addData"]}
{"id": "C03", "title": "Ciphertext length equals plaintext length", "statement": "After any sequence of successful addData calls the result has exactly as many bytes as were added.", "quantifier": "all keys, salts and chunk lists", "why_tests_cant": "unbounded lengths", "anchors": ["src/blockchain.cpp:BlockChain::getResult"]}
{"id": "C04", "title": "Block-chain output equals a direct keystream definition", "statement": "The encrypted bytes equal an independent one-pass definition of the cipher: block i is plaintext block i plus (bytewise, mod 256) H(h_i + s_i), with (h_i,s_i) derived from (h_{i-1},s_{i-1}) (added bytewise) and the hash of plaintext block i-1 (zeros for i=0); a final partial block uses the prefix of its salt.", "quantifier": "every plaintext length, every key/salt", "why_tests_cant": "the object-oriented incremental code must agree with the reference on all lengths and call patterns", "anchors": ["include/blockchain.h:SaltIterator::next", "src/block_encrypt.cpp:EncryptBlock::addData", "src/block.cpp:Block::getHash"]}
{"id": "C05", "title": "Encryption is prefix-causal", "statement": "Appending plaintext never changes ciphertext bytes already determined: the ciphertext of a prefix is the prefix of the ciphertext. The same holds for decryption.", "quantifier": "all plaintexts p and extensions q", "why_tests_cant": "infinitely many prefixes", "anchors": ["src/blockchain.cpp", "src/block.cpp"]}
{"id": "C06", "title": "Wrong-length keys are rejected when a chain is built", "statement": "Constructing an encrypting or decrypting chain succeeds exactly when password hash and salt both have the hash's output length; otherwise invalid_argument is thrown and nothing is produced.", "quantifier": "all lengths of password hash and salt, all three hash sizes", "why_tests_cant": "unbounded input lengths", "anchors": ["include/blockchain.h:SaltIterator::init", "src/blockchain.cpp:BlockChain::BlockChain"]}
{"id": "C07", "title": "A single addData call of 2^31 bytes or more never completes normally", "statement": "For a call with 2^31 or more bytes the call throws (length_error for in-memory data; invalid_argument for a stream, or runtime_error for a stream that ends early) or runs forever, because the remaining length is narrowed to int: it throws length_error or invalid_argument if the low 32 bits of the length are 2^31 or more and runs forever if they are less and the bytes are there; below 2^31 it always completes. So the documented 'any amount of data' is false.", "quantifier": "every length >= 2^31 (and every length below)", "why_tests_cant": "a test cannot allocate/observe every size nor observe divergence", "anchors": ["src/blockchain.cpp:BlockChain::addData"]}
{"id": "C08", "title": "Reported chain height and data size are wrong for every non-empty chain", "statement": "getHeight returns 0 after any history, and getDataSize returns minus the free space of the last block (mod 2^64), which is the number of added bytes only for a chain to which no call was made (for fewer than 2^63 bytes).", "quantifier": "every history of calls", "why_tests_cant": "quantifies over all histories", "anchors": ["include/blockchain.h:BlockChain::getHeight", "include/blockchain.h:BlockChain::getDataSize"]}
{"id": "C09", "title": "Wrong keys and corrupted bodies still decrypt 'successfully' (no integrity)", "statement": "Decrypting any byte string under any key of the right length succeeds with a result of the same length; no input is rejected, and every byte string of the plaintext's length is the decryption of exactly one ciphertext.", "quantifier": "all byte strings, all keys", "why_tests_cant": "an absence-of-detection claim over all inputs", "anchors": ["src/block_decrypt.cpp", "src/blockchain_decrypt.cpp"]}
{"id": "C10", "title": "String chain hashes compute the documented iteration", "statement": "Without a timeout, each of the five string chain hashes with n>=1 iterations returns H(...H(H(pw|s_0)|s_1)...|s_{n-1}) where s_i is empty, the constant salt, decimal(start+i), salt|decimal(start+i), or decimal(a*k^2+b*k+c) with k=start+i, all counters mod 2^64.", "quantifier": "all passwords, salts, coefficients, iteration counts", "why_tests_cant": "unbounded inputs and iteration counts; wrap-around at 2^64 is out of reach for tests", "anchors": ["src/pwfunc.cpp:PwFunc::chainhash"]}
{"id": "C11", "title": "Byte chain hashes agree with string chain hashes on the same bytes", "statement": "For every byte string and every mode, the Bytes overload with n >= 1 iterations and enough spare capacity returns the same digest as the string overload on the same bytes.", "quantifier": "all inputs, modes, iteration counts", "why_tests_cant": "two separately written loops have to agree for all iteration counts", "anchors": ["src/pwfunc.cpp:PwFunc::chainhash"]}
{"id": "C12", "title": "Timeout semantics of chain hashes", "statement": "Timeout 0 never times out; a successful result is the same digest whatever the clock did; a timed-out call reports TIMEOUT/ERR_TIMEOUT and carries no digest; a string chain hash of fewer than 1001 iterations never times out; the call times out exactly when some clock reading taken at a multiple of 1000 iterations reached the timeout.", "quantifier": "every clock behaviour, timeout, iteration count, mode", "why_tests_cant": "schedule/clock dependent", "anchors": ["src/pwfunc.cpp", "src/timer.cpp:Timer::peekTime"]}
{"id": "C13", "title": "Timed chain hashes are reproducible", "statement": "Whenever a timed chain hash returns digest d and iteration count n, the corresponding untimed chain hash with n iterations and the same salts returns d; n is a positive multiple of 1000, and it is the first multiple at which the clock reading reached the runtime.", "quantifier": "every clock behaviour, runtime, input, mode", "why_tests_cant": "depends on real clock; every possible stopping point", "anchors": ["src/pwfunc.cpp:PwFunc::chainhashTimed"]}
{"id": "C14", "title": "Time-based header creation never succeeds", "statement": "performChainHash for a time-based chain hash never returns normally for any mode, so createDataHeader with time settings never succeeds: it always fails (or kills the process) and no data header is produced.", "quantifier": "every mode, runtime, password, clock", "why_tests_cant": "'never succeeds' over all inputs", "anchors": ["src/chainhash_modes.cpp:ChainHashModes::performChainHash", "src/api.cpp:API::_createDataHeaderTime"]}
{"id": "C15", "title": "Counter text always fits in the reserved 20 bytes", "statement": "The decimal text of every 64-bit counter value is its unique decimal notation, has 1 to 20 digits and is injective; hence, as long as hash size plus salt length stays below 2^32, no chain hash of any iteration count throws or terminates. A constant salt of 2^32 minus hash size or more bytes (below 2^32) makes the reserved capacity wrap: undefined behaviour.", "quantifier": "every 64-bit value, every iteration", "why_tests_cant": "2^64 values times every iteration count", "anchors": ["src/pwfunc.cpp", "src/utility.cpp:addStringToBytes"]}
{"id": "C16", "title": "performChainHash dispatches to the documented function with the right parameters", "statement": "For every valid chain hash description, performChainHash on a string equals the documented iteration for that mode with SN, A, B, C read big-endian from the data block parts and S the remaining bytes.", "quantifier": "all valid chain hashes and data", "why_tests_cant": "unbounded parameters; argument-swap errors", "anchors": ["src/chainhash_modes.cpp:ChainHashModes::performChainHash", "src/chainhash_data.cpp:ChainHashData::getPart"]}
{"id": "C17", "title": "Chain hash data: parts go in, the same parts come out", "statement": "For every sequence of addBytes calls, the data block is the concatenation of the accepted parts, at most 255 bytes; a call is accepted exactly when the block is not complete, the length fits the format and the total stays within 255; after completion getPart returns each part exactly as added.", "quantifier": "all call histories, all formats", "why_tests_cant": "all histories", "anchors": ["src/chainhash_data.cpp:ChainHashData::addBytes", "src/chainhash_data.cpp:ChainHashData::getPart"]}
{"id": "C18", "title": "Only valid chain hashes expose their contents", "statement": "After any sequence of setter calls a chain hash reports valid exactly if mode in 1..5, iterations in 1..10^9, and a completed data block of the mode's format are set; otherwise each getter throws. Constructing with an invalid mode throws.", "quantifier": "all setter histories", "why_tests_cant": "all histories", "anchors": ["include/chainhash_modes.h:ChainHash"]}
{"id": "C19", "title": "Generated chain hash data is complete and well-formed", "statement": "generateRandomData on a fresh data block always completes it: 255 bytes if the format has a free-length part, otherwise the exact sum of the part lengths, and every part is then retrievable with the right length; on a non-empty block it throws and changes nothing.", "quantifier": "all formats, all random bytes", "why_tests_cant": "random", "anchors": ["src/chainhash_data.cpp:ChainHashData::generateRandomData"]}
{"id": "C20", "title": "Header length formula and bounds", "statement": "For every complete header reachable through the public setters, getHeaderLength equals 40 + 2*hash size + chain data lengths + 2 per data block + data block bytes + 257 per encrypted block; it is at least 104/136/168 and at most 131684/131716/131748 for the three hash functions, and both bounds are attained; whenever calcHeaderBytes succeeds, getHeaderBytes returns exactly that many bytes.", "quantifier": "all complete headers", "why_tests_cant": "unbounded space of headers", "anchors": ["src/dataheader.cpp:DataHeader::getHeaderLength", "src/dataheader.cpp:DataHeader::calcHeaderBytes", "docs/dataheader.md"]}
{"id": "C21", "title": "A header written to a file is read back identically", "statement": "For every complete header whose data blocks are non-empty, with file size set to its length plus body length, writing header bytes followed by a body of that length and reading it with the stream decoder succeeds and gives a header with the same modes, chain hashes, blocks, validator, salt, file size and the same header bytes.", "quantifier": "all complete headers and bodies", "why_tests_cant": "unbounded space of headers", "anchors": ["src/dataheader.cpp:DataHeader::setHeaderBytes", "src/dataheader.cpp:DataHeader::calcHeaderBytes"]}
{"id": "C22", "title": "The in-memory decoder loses headers with free-length salts", "statement": "setHeaderBytes(Bytes&) reads back every written header below 65536 bytes with non-empty blocks if neither chain hash has a free-length salt. A debug build accepts only such headers. A release build returns the written header exactly when the bytes that the misplaced reads hit happen to repeat the fields that follow the salt, so the salt has to imitate those fields; for some written headers it returns a different header without any error.", "quantifier": "all complete headers below 65536 bytes", "why_tests_cant": "quantifies over headers and decoders", "anchors": ["src/dataheader.cpp:DataHeader::setHeaderBytes"]}
{"id": "C23", "title": "Header bytes are never stale", "statement": "After any sequence of setter calls on a header, getHeaderBytes either throws or returns exactly the serialisation of the current contents.", "quantifier": "all setter histories", "why_tests_cant": "all histories", "anchors": ["src/dataheader.cpp:DataHeader::getHeaderBytes", "src/dataheader.cpp:DataHeader::setFileSize"]}
{"id": "C24", "title": "Passing a wrong password hash to calcHeaderBytes is detected", "statement": "calcHeaderBytes(pwhash, verify) with verify set succeeds only if the second chain hash of pwhash equals the stored validator.", "quantifier": "all headers and password hashes", "why_tests_cant": "all inputs", "anchors": ["src/dataheader.cpp:DataHeader::calcHeaderBytes"]}
{"id": "C25", "title": "Which files the stream decoder accepts", "statement": "If the stream decoder of a debug build accepts a file, the file is exactly the serialisation of a valid header (complete, valid chain hashes, file size field = actual size) followed by the body, and the decoded object shows that header and re-serialises to it. A release build accepts exactly the files of this form up to the header size field and the length bytes of fixed-format chain data, which it ignores; so the re-serialised header can differ from the file.", "quantifier": "every byte string as file content", "why_tests_cant": "every possible file content", "anchors": ["src/dataheader.cpp:DataHeader::setHeaderBytes"]}
{"id": "C26", "title": "Some malformed files crash the reader instead of being rejected", "statement": "Opening a file kills the process exactly in these cases: by std::terminate when a zero-length data block is met, and in a debug build by assertion when a fixed-format chain data length byte or the header size field does not match. For every other file content the decoder returns normally, with an error or a header; it never throws. Each of the four cases occurs.", "quantifier": "every byte string as file content", "why_tests_cant": "every possible file content", "anchors": ["src/dataheader.cpp:DataHeader::setHeaderBytes"]}
{"id": "C27", "title": "Stored file size is computed modulo 2^32", "statement": "setDataSize stores (data size + header length) mod 2^32; so a body length is recorded correctly exactly when data size plus header length is below 2^32, and encryptData passes the length mod 2^32.", "quantifier": "all data sizes", "why_tests_cant": "sizes over 4 GiB", "anchors": ["src/dataheader.cpp:DataHeader::setDataSize", "src/api.cpp:DECRYPTED::encryptData"]}
{"id": "C28", "title": "Encrypted data blocks can only be built from 255-byte blocks and keep their type in clear", "statement": "Building an encrypted data block from plain data throws unless the data is exactly 255 bytes; then decrypting with the same password hash and salt gives back the data, but the stored type byte is the plain type and the decrypted type is wrong unless the key byte is 0.", "quantifier": "all blocks, keys, salts", "why_tests_cant": "all inputs", "anchors": ["include/dataheader.h:EncDataBlock"]}
{"id": "C29", "title": "Password policy", "statement": "isPasswordValid accepts exactly the strings of at least 8 and less than 2^31 bytes whose bytes all occur in the allowed character set, and reports CHAR_INVALID (with the first such character) before TOO_SHORT. Its index is an int: a string that begins with 2^31 allowed characters makes it overflow, which is undefined, and no other string does.", "quantifier": "every string", "why_tests_cant": "every string", "anchors": ["src/pwfunc.cpp:PwFunc::isPasswordValid"]}
{"id": "C30", "title": "Which files can be opened", "statement": "Opening a file handler succeeds exactly when the path ends in .enc, the file exists and can be opened, and it is either empty or has at least 16 bytes, its first 8 bytes encode its real size, and the next 8 encode a header size between 104 and that size.", "quantifier": "every path and file content", "why_tests_cant": "every file content", "anchors": ["src/filehandler.cpp:FileHandler::FileHandler", "src/filehandler.cpp:FileHandler::update"]}
{"id": "C31", "title": "createFile never touches an existing file", "statement": "createFile succeeds only if the path is valid and did not exist, then leaves an empty file; on failure the file system is unchanged; other files never change.", "quantifier": "every path and file system", "why_tests_cant": "every file system", "anchors": ["src/filehandler.cpp:FileHandler::createFile"]}
{"id": "C32", "title": "'Write only if empty' relies on a stale observation", "statement": "getWriteStreamIfEmpty refuses exactly when the file was non-empty when the handler was opened; a file that has become non-empty in between is silently truncated.", "quantifier": "every interleaving of another process' write between open and write", "why_tests_cant": "race", "anchors": ["src/filehandler.cpp:FileHandler::getWriteStreamIfEmpty"]}
{"id": "C33", "title": "Operations outside their workflow state fail and change nothing", "statement": "In every state, each API call that the state does not offer returns FAIL with ERR_API_STATE_INVALID and leaves API state and file system unchanged (createDataHeader with incomplete settings reports that first).", "quantifier": "all states, all calls and arguments", "why_tests_cant": "all states and arguments", "anchors": ["include/api.h:API::WorkflowState"]}
{"id": "C34", "title": "No decrypted data without the password", "statement": "In every API history from the constructor, a call returns decrypted file contents only if, since the last logout, a verifyPassword call succeeded on the selected file's header; the key used is the one verified.", "quantifier": "every history of API calls", "why_tests_cant": "every history", "anchors": ["src/api.cpp:FILE_SELECTED::verifyPassword", "src/api.cpp:PASSWORD_VERIFIED::getDecryptedData"]}
{"id": "C35", "title": "verifyPassword succeeds exactly on matching validator", "statement": "Without timeouts in play, verifyPassword(pw) succeeds iff the second chain hash of the first chain hash of pw equals the stored validator; on failure the state does not change and the reply is ERR_PASSWORD_INVALID.", "quantifier": "all headers and passwords", "why_tests_cant": "all inputs", "anchors": ["src/api.cpp:FILE_SELECTED::verifyPassword"]}
{"id": "C36", "title": "Create, write, reopen, verify, decrypt: full round trip", "statement": "For every password, settings, random bytes and data (small enough for the size fields), creating a file, creating a header, encrypting, writing, and then in a new session selecting, verifying with the same password and decrypting returns exactly the data.", "quantifier": "all passwords, settings, data, random values", "why_tests_cant": "end-to-end over all inputs", "anchors": ["src/api.cpp", "src/dataheader.cpp", "src/blockchain.cpp"]}
{"id": "C37", "title": "Only createFile, deleteFile and writeToFile change the file system, and only one file", "statement": "In every API history, each call leaves every file other than its target unchanged, and every call except createFile, deleteFile, writeToFile leaves all files unchanged.", "quantifier": "all histories", "why_tests_cant": "all histories", "anchors": ["src/api.cpp"]}
{"id": "C38", "title": "Crash while writing is not atomic, but a torn file is never accepted as a valid one", "statement": "If the process ends during writeToFile, the file holds what it held at that moment: the old content until it is opened for writing, then nothing, then the pieces written so far; so the old content is lost and any prefix of the new content can remain. Every non-empty strict prefix is rejected by selectFile; the empty prefix is treated as an empty file.", "quantifier": "every crash point", "why_tests_cant": "crash points", "anchors": ["src/api.cpp:ENCRYPTED::writeToFile", "src/filehandler.cpp:FileHandler::update"]}
{"id": "C39", "title": "logout returns to the initial state; logout(mode) does not change the mode", "statement": "After logout in any state the API behaves as freshly constructed with the original file mode; logout(file_mode) is identical and ignores its argument.", "quantifier": "all states", "why_tests_cant": "all states", "anchors": ["include/api.h:API::WorkflowState::logout"]}
{"id": "C40", "title": "verifyPassword's overall timeout is not enforced", "statement": "If the first chain hash ends with more elapsed time than the timeout (possible because the clock is only read every 1000 iterations), the remaining time wraps around to nearly 2^64 ms and the second chain hash runs without effective timeout, so verifyPassword can succeed after the timeout; with timeout 0, a nonzero bogus timeout is passed on.", "quantifier": "every clock behaviour", "why_tests_cant": "clock", "anchors": ["src/api.cpp:FILE_SELECTED::verifyPassword"]}
{"id": "C41", "title": "changeSalt keeps the password and settings", "statement": "changeSalt replaces only the salt (by the next random bytes): chain hashes, validator, modes, blocks unchanged, so the same password still verifies; on failure nothing changes.", "quantifier": "all headers and random values", "why_tests_cant": "all inputs", "anchors": ["src/api.cpp:DECRYPTED::changeSalt"]}
{"id": "C42", "title": "Changing the password re-keys the file", "statement": "In state DECRYPTED, createDataHeader with a new password followed by encryptData and writeToFile produces a file that the new password opens to the same data.", "quantifier": "all passwords and data", "why_tests_cant": "end-to-end", "anchors": ["src/api.cpp:DECRYPTED::createDataHeader"]}
{"id": "C43", "title": "getRelevantFileNames always returns an empty list", "statement": "Whatever files the directory contains, a successful getRelevantFileNames returns no names. The paths it looks at are the directory's path, a separator unless the path already ends with one, and the entry's name.", "quantifier": "all directories", "why_tests_cant": "all directory contents", "anchors": ["src/api.cpp:INIT::getRelevantFileNames"]}
{"id": "C44", "title": "A failed encryptData loses nothing on disk and stays in state DECRYPTED", "statement": "If encryptData fails the state is still DECRYPTED, no file changed, key unchanged.", "quantifier": "all inputs", "why_tests_cant": "all inputs", "anchors": ["src/api.cpp:DECRYPTED::encryptData"]}
{"id": "C45", "title": "Bytewise + and - are inverse", "statement": "For equal-length byte strings (a+b)-b = a and (a-b)+b = a; + is commutative and associative; for different lengths both throw length_error.", "quantifier": "all byte strings", "why_tests_cant": "2^(8n) inputs for every n", "anchors": ["src/bytes.cpp:operator+", "src/bytes.cpp:operator-"]}
{"id": "C46", "title": "Integer encoding round trip", "statement": "toLong(fromLong(n)) = n for every 64-bit n, with and without leading zeros; fromLong without zeros has minimal length; with zeros length 8; toLong throws above 8 bytes and is the big-endian value otherwise; getLongLen(n) is that minimal length.", "quantifier": "all 64-bit values, all byte strings", "why_tests_cant": "2^64 values", "anchors": ["src/bytes.cpp:Bytes::fromLong", "src/bytes.cpp:Bytes::toLong", "src/utility.cpp:getLongLen"]}
{"id": "C47", "title": "toHex is injective", "statement": "toHex yields two uppercase hex digits per byte and different byte strings give different texts.", "quantifier": "all byte strings", "why_tests_cant": "unbounded inputs", "anchors": ["src/bytes.cpp:Bytes::toHex"]}
{"id": "C48", "title": "Bytes behaves like a capacity-bounded list", "statement": "Under any sequence of value operations the content stays within the capacity, each operation either throws and leaves the content unchanged or has exactly the corresponding list effect.", "quantifier": "all sequences of operations, with random requests below 2^31 bytes", "why_tests_cant": "all operation sequences", "anchors": ["src/bytes.cpp"]}
{"id": "C49", "title": "Memory safety of Bytes histories", "statement": "Any history of constructor/copy/append/consume/move/assign/destroy operations that uses no object outside its lifetime or after a move, and never writes beyond the array left by consumeBytes, performs no out-of-bounds access, no use of freed or uninitialised memory and no double free, computes with the objects as with values, and frees every array once all objects are destroyed. Histories without moves and consumeBytes only have to respect lifetimes, sizes below 2^63, random requests below 2^31 bytes, no self-copy by copyToBytes and no setLen beyond the content. Conversely appending beyond the consumed array always overflows the heap, and assigning to a moved-from object or moving from an object twice always ends in a double free.", "quantifier": "all histories", "why_tests_cant": "memory errors depend on history; tests without sanitizer miss them", "anchors": ["src/bytes.cpp:Bytes::consumeBytes", "src/bytes.cpp:Bytes::operator=", "src/bytes.cpp:Bytes::Bytes"]}
{"id": "C50", "title": "Random bytes in a range", "statement": "get_random_byte(lower, upper) with lower<upper returns a value in [lower, upper) for every random source and never upper; equal bounds return that value; inverted bounds throw.", "quantifier": "all bounds, all random values", "why_tests_cant": "all random outcomes", "anchors": ["src/rng.cpp:RNG::get_random_byte"]}
{"id": "C51", "title": "Timer protocol and total time", "statement": "Under any sequence of timer calls each call either throws logic_error exactly in the wrong phase or advances; the reported total time is the sum of laps minus less than one ms per lap (integer division), so it is exact iff the lap count divides the sum; the slowest lap is the maximum.", "quantifier": "all call sequences and clock readings", "why_tests_cant": "clock and history", "anchors": ["src/timer.cpp"]}
{"id": "C52", "title": "Number input validation", "statement": "On every string of 7-bit characters isValidNumber accepts exactly: blank if allowed, or a digit string whose value fits in 64 bits and lies within the bounds. Its behaviour is undefined exactly when the first non-digit is a byte of 128 or more.", "quantifier": "all strings and bounds", "why_tests_cant": "unbounded strings", "anchors": ["src/utility.cpp:isValidNumber"]}
{"id": "C53", "title": "Error structs give a value only on success, and not by value or reference after a move", "statement": "For every sequence of accessor calls: a value is returned only if the struct is successful and holds a value; once it has been moved out, access by value or by reference always throws. A second returnMove however is not refused: it hands out the moved-from object.", "quantifier": "all call sequences", "why_tests_cant": "all histories", "anchors": ["include/error.h:ErrorStruct"]}
{"id": "C54", "title": "The streaming cipher terminates the process on its first block", "statement": "For every key, salt and input file, enc_stream ends in std::terminate, without writing any byte.", "quantifier": "all inputs", "why_tests_cant": "all inputs", "anchors": ["src/blockchain_stream.cpp:BlockChainStream::enc_stream", "include/blockchain_stream.h:SaltIterator::next"]}
{"id": "C55", "title": "Reading from a stream takes exactly the requested bytes", "statement": "readData succeeds iff the buffer has room and the stream has at least size bytes left; then exactly the next size bytes are appended and the position advances by size.", "quantifier": "all streams, positions, sizes and all splittings of reads by the OS", "why_tests_cant": "partial reads are schedule dependent", "anchors": ["src/utility.cpp:readData"]}
{"id": "C56", "title": "Header settings objects accept only values in range", "statement": "For all setter histories on header settings, isComplete is true exactly if all six values have been set successfully, every stored value is in its valid range, and rejected values leave the object unchanged.", "quantifier": "all histories", "why_tests_cant": "all histories", "anchors": ["include/dataheader.h:DataHeaderSettingsIters", "include/dataheader.h:DataHeaderSettingsTime"]}
{"id": "C57", "title": "Random strings consist of exactly the requested number of letters", "statement": "get_random_string(num) that returns gives exactly num ASCII letters, for every random source, and it returns as soon as the source has delivered num letters; num < 1 throws. The letters are those the source delivered, in that order, and nothing else.", "quantifier": "all random sources and lengths", "why_tests_cant": "every random outcome", "anchors": ["src/rng.cpp:RNG::get_random_string"]}
{"id": "C58", "title": "A valid chain hash cannot be invalidated or altered through a shared data pointer", "statement": "The data block of a chain hash is shared by pointer. Whatever calls are made on that block from outside, a chain hash that reports valid stays usable, and it stays completely unchanged unless it has mode 2 with an empty salt; in that one case generateRandomData replaces the salt under the valid chain hash. Conversely a chain hash whose block is completed later through the shared pointer keeps reporting invalid until any setter is called on it, and then reports correctly.", "quantifier": "all reachable chain hashes, all call sequences on the shared block, both builds", "why_tests_cant": "Needs all interleavings of aliased mutations; the exception is one corner (empty free-length salt) that no test constructs.", "anchors": ["include/chainhash_modes.h:ChainHash", "src/chainhash_data.cpp:ChainHashData::addBytes", "src/chainhash_data.cpp:ChainHashData::generateRandomData"]}
{"id": "C59", "title": "A default-constructed timed chain hash reads an uninitialised run time exactly when completed before setRunTime", "statement": "For every reachable ChainHashTimed, setting a valid mode or a non-null data block has undefined behaviour exactly if the run time was never set and after the call both mode and data are set; calling setRunTime first avoids it.", "quantifier": "all reachable timed chain hashes and setter calls", "why_tests_cant": "Reading an indeterminate value usually goes unnoticed in a test run.", "anchors": ["include/chainhash_modes.h:ChainHashTimed"]}
{"id": "C61", "title": "An accepted wrong password is a digest collision", "statement": "If verifyPassword accepts a password for a file that was sealed with some password, then either it is that password, or checking the two passwords feeds two different inputs to the digest in the same round which have the same digest. The round and the inputs are explicit.", "quantifier": "all histories, files, headers, passwords, both builds, all digests", "why_tests_cant": "A security reduction quantifies over all passwords; a test can only try some wrong ones.", "anchors": ["src/api.cpp:FILE_SELECTED::verifyPassword", "src/pwfunc.cpp:PwFunc::chainhash"]}
{"id": "C62", "title": "Saving again with the same salt reveals the first difference", "statement": "Decrypting, encrypting new data and saving without changeSalt keeps the header, salt and key. Two files made like this agree up to the first block where the data differ, and in that block the bytewise differences of the cipher texts are the bytewise differences of the data.", "quantifier": "all headers, passwords, pairs of data with a common prefix of whole blocks", "why_tests_cant": "Secrecy relation between two runs for all data; no test compares two cipher texts.", "anchors": ["src/api.cpp:API::DECRYPTED::encryptData", "src/block_encrypt.cpp:EncryptBlock", "src/blockchain_encrypt.cpp:EncryptBlockChain"]}
{"id": "C63", "title": "Files can be forged without the password", "statement": "There is no integrity check. Someone who knows the last block of the data can change it to anything of the same length without the password, and the file opens with the right password and shows the changed data. Whatever bytes stand behind a header are accepted as the encryption of some data of that length.", "quantifier": "all headers, passwords, data, replacement bytes and bodies", "why_tests_cant": "An attack statement for all data and replacements; tests only use files the program wrote.", "anchors": ["src/api.cpp:API::PASSWORD_VERIFIED::getDecryptedData", "src/filehandler.cpp:FileHandler::getDataHeader"]}
{"id": "C60", "title": "Exactly which API calls end the process", "statement": "After any history of calls, a call ends the process if and only if the state offers it and one of these holds: the status of an .enc path cannot be read (createFile, selectFile, both writeToFile); selectFile or getRelevantFileNames meets a readable file with fitting sizes whose header announces an empty block, or (Debug build) has a wrong length byte or header size; the directory cannot be listed; getRelevantFileNames has looked at 2^31 .enc files without meeting such a file, so that its int index overflows, which is undefined; the file cannot be removed (deleteFile); createDataHeader is given complete time settings; encryptData is given a null pointer or null data. In all these cases the files are unchanged. No call ever lets an exception escape, and every other call returns.", "quantifier": "all histories, file systems, worlds (permissions, clocks, random bytes), calls and both builds; returning needs data below 2 GiB", "why_tests_cant": "An exact characterisation of all crashing calls needs every history and every file; a test process that crashes cannot continue.", "anchors": ["src/api.cpp:API::INIT::selectFile", "src/api.cpp:API::INIT::getRelevantFileNames", "src/api.cpp:API::DECRYPTED::encryptData", "src/api.cpp:API::_deleteFile", "src/api.cpp:API::ENCRYPTED::writeToFile", "src/filehandler.cpp:FileHandler::isValidPath", "include/file_data.h:FileDataStruct"]}
{"id": "C64", "title": "getFileContent returns what stands in the file now, cut to its size modulo 4 GiB", "statement": "In state FILE_SELECTED getFileContent returns the first (size mod 2^32) bytes of the file as it is at the call, even if the file was replaced after it was selected; if it is missing or unreadable it fails with ERR_FILE_READ. In state EMPTY_FILE_SELECTED it returns no bytes whatever the file contains by then. It changes nothing.", "quantifier": "all histories, file systems, files of any size", "why_tests_cant": "Files of 4 GiB and files replaced between calls are not tested, and the statement is about all histories.", "anchors": ["src/api.cpp:API::FILE_SELECTED::getFileContent", "src/api.cpp:API::EMPTY_FILE_SELECTED::getFileContent", "src/filehandler.cpp:FileHandler::getAllBytes"]}
{"id": "C65", "title": "isFileEmpty answers for the moment of selection, getFileData gives the new data once", "statement": "isFileEmpty tells whether the file was empty when it was selected, not whether it is empty now. getFileData succeeds exactly if createDataHeader has succeeded on an empty file and getFileData has not been called successfully since; then it gives empty data, otherwise it fails with ERR_FILEDATASTRUCT_NULL. In particular it never gives the decrypted data of a file.", "quantifier": "all histories and file systems", "why_tests_cant": "The answer depends on the whole history of calls and on changes of the file by others.", "anchors": ["src/api.cpp:API::FILE_SELECTED::isFileEmpty", "src/api.cpp:API::EMPTY_FILE_SELECTED::isFileEmpty", "src/api.cpp:API::DECRYPTED::getFileData", "src/api.cpp:API::EMPTY_FILE_SELECTED::createDataHeader", "src/api.cpp:API::PASSWORD_VERIFIED::getDecryptedData"]}
{"id": "C66", "title": "writeToFile reports success even if the disk is full", "statement": "If the selected file can be opened for writing, writeToFile reports success whatever number of bytes reached the disk; the file then holds that prefix of the sealed data. If it is a proper non-empty prefix, selecting the file afterwards fails with ERR_FILEHANDLER_CREATION, so the data is lost although success was reported.", "quantifier": "all histories, data, file systems, and numbers of bytes that fit", "why_tests_cant": "Tests run with enough disk space; the failure needs every possible point at which the write stops.", "anchors": ["src/api.cpp:API::ENCRYPTED::writeToFile", "src/filehandler.cpp:FileHandler::getWriteStream"]}
{"id": "C67", "title": "writeToFile overwrites whatever others have saved", "statement": "What writeToFile leaves in the selected file, and that it succeeds, does not depend on what the file contains at the time of the call, as long as it exists and can be opened: changes made by other programs since it was selected are overwritten without notice, and all other files are unchanged.", "quantifier": "all histories and all contents of the file at the time of writing", "why_tests_cant": "Quantifies over all interleavings with other programs.", "anchors": ["src/api.cpp:API::ENCRYPTED::writeToFile", "src/filehandler.cpp:FileHandler::getWriteStream"]}
{"id": "C68", "title": "deleteFile removes the file at the selected path and nothing else", "statement": "deleteFile removes whatever file stands at the selected path at the time of the call, changes no other file and returns to the initial state; if there is none any more it fails with ERR_FILE_NOT_DELETED and changes nothing. Creating, selecting and deleting a file leaves the file system as it was.", "quantifier": "all histories and file systems, both selected states", "why_tests_cant": "A frame property over all files and histories, including replacement of the file between the calls.", "anchors": ["src/api.cpp:API::_deleteFile", "src/api.cpp:API::FILE_SELECTED::deleteFile", "src/api.cpp:API::EMPTY_FILE_SELECTED::deleteFile", "src/api.cpp:API::_unselectFile"]}
{"id": "C69", "title": "The file reader agrees with a reader written from the file format, on every byte string", "statement": "For every file content the header reader answers exactly as a small reference reader of plain byte strings: the same header and the same rest of the file, the same error code (with the same precedence among several faults), or the same end of the process. This includes truncated files, wrong sizes, wrong modes, iteration counts out of range, wrong length bytes, and empty blocks.", "quantifier": "all byte strings below 2^64 bytes, both builds, all random sources", "why_tests_cant": "The tests try a few malformed headers; agreement on all byte strings with all combinations of faults needs a refinement proof.", "anchors": ["src/dataheader.cpp:DataHeader::setHeaderBytes", "src/dataheader.cpp:DataHeader::setChainHash1"]}
{"id": "C70", "title": "Any use of the API behaves as a small reference machine", "statement": "There is a machine with seven kinds of session (idle, empty file selected, file selected, password verified, open, sealed, finished) holding only plain values (path, content at selection, header, password, data), such that after any sequence of API calls every reply, every error code, every change of the files, every end of the process and every endless call is the one of the machine.", "quantifier": "all sequences of calls with all arguments, all file systems that may change between calls, all circumstances (permissions, clocks, random bytes, free room), both builds", "why_tests_cant": "It is a simulation over unbounded sequences of calls and all environments; tests fix one path through the states.", "anchors": ["src/api.cpp:API::INIT::selectFile", "src/api.cpp:FILE_SELECTED::verifyPassword", "src/api.cpp:API::EMPTY_FILE_SELECTED::createDataHeader", "src/api.cpp:API::PASSWORD_VERIFIED::getDecryptedData", "src/api.cpp:API::DECRYPTED::encryptData", "src/api.cpp:API::DECRYPTED::changeSalt", "src/api.cpp:API::ENCRYPTED::writeToFile", "include/api.h:API::WorkflowState::logout"]}
{"id": "C71", "title": "encryptData succeeds below 2 GiB, fails cleanly or never returns above", "statement": "In state DECRYPTED, encryptData with n bytes succeeds for n < 2^31. For n >= 2^32 with n mod 2^32 < 2^31 it never returns, however long one waits. For all other n it fails with ERR and the state stays DECRYPTED. No file changes in any case.", "quantifier": "all histories that reach DECRYPTED, all data, all hash functions, both builds", "why_tests_cant": "Needs data of several GiB and the observation that a loop never ends.", "anchors": ["src/api.cpp:API::DECRYPTED::encryptData", "src/blockchain.cpp:BlockChain::addData", "src/dataheader.cpp:DataHeader::setDataSize"]}
{"id": "C72", "title": "getDecryptedData by the length of the body: success, clean failure or no return", "statement": "Let n be the body length recorded when the file was selected. If at least n bytes of body are there at the call and n < 2^31, getDecryptedData returns n bytes. If n >= 2^32, n mod 2^32 < 2^31 and the file still has n mod 2^32 bytes of body, it never returns. In every other case (for instance if the file has become shorter, unreadable or has vanished) it fails with ERR and the object is unchanged.", "quantifier": "all histories that reach PASSWORD_VERIFIED, all files then and now, both builds", "why_tests_cant": "Needs files of several GiB, files that change between calls, and non-termination.", "anchors": ["src/api.cpp:API::PASSWORD_VERIFIED::getDecryptedData", "src/blockchain.cpp:BlockChain::addData", "src/filehandler.cpp:FileHandler::getDataSize"]}
{"id": "C73", "title": "isDataHeader accepts exactly the readable files of the expected mode", "statement": "For a file handler of a non-empty file, isDataHeader succeeds if and only if the reference reader accepts the file and the expected mode is the one mode that exists; with another mode it fails with ERR_FILEMODE_INVALID, and on a file that cannot be read it gives the code of the reader.", "quantifier": "all files and file systems, all expected modes, both builds", "why_tests_cant": "Its result is not visible through the API (the listing drops it), so no API test covers it; the statement is about all files.", "anchors": ["src/filehandler.cpp:FileHandler::isDataHeader", "src/filehandler.cpp:FileHandler::getDataHeader"]}
{"id": "C74", "title": "What a failing random generator does to every call", "statement": "Let the random generator fail at any of its uses. Only selecting a file, listing a directory, createDataHeader and changeSalt are affected. Reading a file whose sizes fit and whose hash mode is known needs random bytes that are thrown away: if they cannot be had, selecting or listing it ends the process. changeSalt ends the process. createDataHeader ends the process if the bytes for a chain hash of mode 2 or 4, for the salt or for the header object fail, and is answered with ERR, without a change of the object, if those for a chain hash of another mode fail. No file changes in these cases. Every object that can be reached with a failing generator is reached by the same calls with a working one, except failed createDataHeader calls, which are left out.", "quantifier": "all sequences of calls, all patterns of failures of the generator, all files and circumstances, both builds", "why_tests_cant": "RAND_bytes does not fail in a test environment, and which of several uses fails is a separate case for every call.", "anchors": ["src/rng.cpp:RNG::fill_random_bytes", "src/bytes.cpp:Bytes::fillrandom", "src/bytes.cpp:Bytes::addrandom", "src/dataheader.cpp:DataHeader::DataHeader", "src/api.cpp:API::_createDataHeaderIters", "src/api.cpp:API::DECRYPTED::changeSalt"]}
{"id": "C75", "title": "The digests have the sizes the rest of the library relies on", "statement": "For each of the three hash modes and every input, hash(data, extra_space) gives 256, 384 or 512 bits of digest in a buffer with room for extra_space (taken modulo 2^32) more bytes, and the digest does not depend on extra_space. It writes past its buffer exactly if the sum of digest size and extra_space reaches 2^32. Any other mode is refused with invalid_argument.", "quantifier": "all modes, all inputs of any length, all extra_space values", "why_tests_cant": "Tests compare a few digests with known answers; the size for all inputs and the overflow near 2^32 need a proof.", "anchors": ["src/sha256.cpp:sha256::hash", "src/sha384.cpp:sha384::hash", "src/sha512.cpp:sha512::hash", "src/hash_modes.cpp:HashModes::getHash"]}
{"id": "C77", "title": "Every file is as the last call on it left it, whoever made the call and whoever died", "statement": "Let any number of API objects, in one or more processes, call any operations in any order on the same files, and let any process die at any moment, also in the middle of writing. Every file is as the last createFile, deleteFile or writeToFile on it left it (empty; gone; header and encrypted data of the calling object), where of a call that was interrupted either nothing or a written prefix remains. If the last such call was a completed save made without empty data blocks, then a new object that selects the file and gives the password of that save gets exactly the saved data.", "quantifier": "all numbers of objects, all interleavings of their calls, all points of death, all files and circumstances, both builds", "why_tests_cant": "Interleavings of several objects and points of death are unbounded; a test shows one schedule.", "anchors": ["src/api.cpp:API::FILE_SELECTED::deleteFile", "src/api.cpp:API::INIT::createFile", "src/api.cpp:API::ENCRYPTED::writeToFile", "src/filehandler.cpp:FileHandler::getWriteStream", "src/api.cpp:API::PASSWORD_VERIFIED::getDecryptedData"]}
{"id": "C78", "title": "A read that nobody disturbed gives the last save; a disturbed one can give garbage", "statement": "Several objects work on the same files. If an object selects a file, verifies a password and decrypts, and nobody changes the file between the selection and the decryption, then the data are those of the last completed save of that file (or the password is another one that collides with the one of the save). If the file did not exist or was empty at the beginning, what is read was encrypted and written by some object before. Without the condition both fail: if another object changes the salt and saves between verifyPassword and getDecryptedData, getDecryptedData succeeds with bytes that nobody ever saved.", "quantifier": "all numbers of objects, all interleavings, deaths at any point, both builds", "why_tests_cant": "It is a statement about every schedule of several objects; the failing schedule has to be found first.", "anchors": ["src/api.cpp:FILE_SELECTED::verifyPassword", "src/api.cpp:API::PASSWORD_VERIFIED::getDecryptedData", "src/api.cpp:API::INIT::selectFile", "src/api.cpp:API::DECRYPTED::changeSalt"]}
{"id": "C79", "title": "A header with an empty data block is written and can never be opened again", "statement": "A DataBlock that was never given data is accepted in the settings of createDataHeader, encrypted data are written with it and every call is answered with success. But every later selection of the file ends the process, and so does every listing of a directory that reaches it: the saved data can not be reached any more through the API.", "quantifier": "all histories, settings with at least one empty block, passwords, data, both builds", "why_tests_cant": "The loss shows only in a later session and as the end of the process; tests use blocks with data.", "anchors": ["src/dataheader.cpp:DataHeader::addDataBlock", "src/dataheader.cpp:DataHeader::setHeaderBytes", "src/api.cpp:API::_createDataHeaderIters", "src/api.cpp:API::INIT::selectFile"]}
{"id": "C76", "title": "The texts about modes exist exactly for valid modes and tell them apart", "statement": "endsWith(full, ending) is true exactly if full is something followed by ending. HashModes::getInfo, ChainHashModes::getInfo and getShortInfo give a text exactly for the modes 1-3 and 1-5 and throw invalid_argument for any other number; FileModes::getInfo gives one exactly for mode 1 and otherwise prints the beginning of its text on the standard output and throws logic_error. Different modes have different texts, the long texts contain the number of the mode in decimal, and the long text of a hash mode ends with its name.", "quantifier": "all strings; all mode numbers, also those outside of the enums", "why_tests_cant": "There are no tests of these texts, and strings and numbers are unbounded.", "anchors": ["src/utility.cpp:endsWith", "src/hash_modes.cpp:HashModes::getInfo", "src/chainhash_modes.cpp:ChainHashModes::getInfo", "src/chainhash_modes.cpp:ChainHashModes::getShortInfo", "src/file_modes.cpp:FileModes::getInfo"]}
{"id": "C80", "title": "Error messages tell errors apart, except where the details come first", "statement": "For error codes other than ERR and the eight codes whose message begins with the details, messages of two different codes differ whatever the details, exception texts and verbosity are. With the same details and exception text, messages of any two codes other than ERR differ. The details appear in the message and can be recovered from it, except for ERR and a fixed list of codes whose message ignores them (among them ERR_TIMEOUT, whose text ends with a colon). A verbose message is the short one followed by the exception text. Without the exceptions it is false: ERR with fitting details looks like any other error, and so does \"<details> file is not empty\". The text of every code names what the code is about (a table of words).", "quantifier": "all codes, details, exception texts and verbosity, all failed results", "why_tests_cant": "The details are arbitrary texts; that no two of 45 messages can coincide is a statement about all of them.", "anchors": ["include/error.h:getErrorMessage"]}
{"id": "C81", "title": "The default directory can be taken from the result exactly if it exists", "statement": "getEncDirPath ends the process if the file system cannot tell whether data/enc exists. If it does not exist the result is ERR_FILEPATH_INVALID, each way to take the path out of the result throws, and listing it would fail with the same code. If it exists the result is the path data/enc, and listing it is not refused as missing.", "quantifier": "all circumstances", "why_tests_cant": "Whether the path leaks out of a failed result although it is stored in it depends on the accessors of ErrorStruct, in all cases.", "anchors": ["src/api.cpp:API::getEncDirPath", "src/api.cpp:API::getAllEncFileNames", "include/error.h:returnValue"]}
{"id": "C82", "title": "Searching password data finds exactly the passwords added for matching sites", "statement": "PasswordData::addPw accepts exactly sets whose four parts have at most 255 bytes each and throws invalid_argument for others. After any sequence of addPw, remPw, editPw and constructFileData calls that return, getSets(substring) returns each password added and not thrown away by loading, as often as it was added, whose site contains the substring up to the case of A-Z, and no other; sorted by site if asked for, else with the passwords of one site in the order they were added. remPw and editPw do nothing. (password_data.cpp is not part of the build; see DESIGN.md.)", "quantifier": "all call sequences, all strings, any iteration order of the hash map, any correct sort", "why_tests_cant": "There are no tests of this class; sequences and strings are unbounded, and the order of an unordered_map cannot be chosen by a test.", "anchors": ["src/password_data.cpp:PasswordData::getSets", "src/password_data.cpp:PasswordData::addPw", "src/password_data.cpp:PasswordData::remPw", "include/password_data.h:isValid"]}
{"id": "C83", "title": "Password data cannot be saved", "statement": "PasswordData::getFileData returns normally only if the object holds no password, and then the data are empty. As soon as it holds one, getFileData throws runtime_error or has undefined behaviour (a range between iterators of two different temporary strings). If all n passwords are for one site it throws exactly if n is not a multiple of 3.", "quantifier": "all call sequences, any iteration order of the hash map", "why_tests_cant": "That no set of passwords at all can be saved is a statement about all of them, and one of the two outcomes is undefined behaviour.", "anchors": ["src/password_data.cpp:PasswordData::getFileData", "src/password_data.cpp:PasswordData::getBytes"]}
{"id": "C84", "title": "Password data in the documented format cannot be loaded", "statement": "PasswordData::constructFileData on any non-empty sequence of sets in the format of docs/password_data.md has undefined behaviour: back() of an empty vector at the first user name. It reports success exactly for empty data of file mode 1. Other modes give ERR_FILEMODE_INVALID and change nothing; a struct without a mode ends the process. Data that end before the first user name is complete give ERR_FILEDATA_INVALID.", "quantifier": "all file data, all objects", "why_tests_cant": "The statement is about every file content; undefined behaviour may look like success in a test.", "anchors": ["src/password_data.cpp:PasswordData::constructFileData", "include/file_data.h:getFileMode"]}
{"id": "C85", "title": "What the console questions accept", "statement": "The mode checks of App (isValidFileMode, isValidHashMode, isValidChainHashMode) always return. They accept a line exactly if it is blank and blanks are allowed, or consists of white space, an optional plus sign and digits of a number between 1 and the greatest mode, followed by anything that does not begin with a digit ('2nd' is mode 2). The questions for a mode return the answer of the first accepted line, or the standard for a blank line or at the end of the input. The question for the iterations returns the first blank or purely decimal line between 1 and 10^9, and has undefined behaviour if a line with a byte above 127 after digits only comes first. The question for the password returns the first line that satisfies the password policy, never returns if the input has none, and is undefined if a line that begins with 2^31 allowed characters comes first. (app.cpp is not part of the build; see DESIGN.md.)", "quantifier": "all inputs of any number of lines", "why_tests_cant": "Inputs are unbounded, and one claim is that a loop never ends.", "anchors": ["src/app.cpp:App::isValidChar", "src/app.cpp:App::isValidHashMode", "src/app.cpp:App::askForFileMode", "src/app.cpp:App::askForIters", "src/app.cpp:App::askForPasswd"]}
{"id": "C86", "title": "Null pointers, arrays and random fills of Bytes", "statement": "Every Bytes function that takes an array rejects a null pointer with an exception, for every length and every object. With an array of at least the given length it does what the list of the first bytes says. copyToArray changes only the first getLen() bytes of the array; it throws LengthError if the given length is too small, and writes past the array if the given length is right but the array is shorter. addrandom with a number of 0 or more adds that many random bytes or throws LengthError; with a negative number -m it has undefined behaviour if the object holds at least m bytes and throws LengthError otherwise. RNG::fill_random_bytes on an object replaces its content with the random bytes, throws LogicError if the number is above the capacity, and RuntimeError if the generator fails.", "quantifier": "all objects, arrays, lengths and numbers", "why_tests_cant": "The undefined cases have no test, and the effect of a negative number depends on an unsigned wraparound for every content length.", "anchors": ["src/bytes.cpp:Bytes::setBytes", "src/bytes.cpp:Bytes::addBytes", "src/bytes.cpp:Bytes::consumeBytes", "src/bytes.cpp:Bytes::copyToArray", "src/bytes.cpp:Bytes::addrandom", "src/rng.cpp:RNG::fill_random_bytes"]}
{"id": "C87", "title": "Bytes converted to enumerations", "statement": "Converting a byte to one of the enumerations of base.h is undefined in C++ for values the enumeration cannot hold (FModes 0-1, HModes 0-3, CHModes and DatablockType 0-7). For every input each decoder with these conversions checked gives the same result as without, or has undefined behaviour. Of the headers that are accepted, exactly those with every block type below 8 are read with defined behaviour; the mode bytes of an accepted header are never out of range. In the stream decoder the error codes for an invalid mode byte are defined behaviour only for the byte 0 (for the two chain hash modes: 0, 6 and 7); every other invalid byte is undefined before the check runs. Making an encrypted block has undefined behaviour unless (type + k) mod 256 is below 8, k being the first byte of the hash of the password hash, and reading its type unless (type - k) mod 256 is.", "quantifier": "all files, byte strings, header contents, blocks, password hashes and hash functions", "why_tests_cant": "Undefined conversions give the expected result on one compiler, so a test passes; which inputs avoid them is a statement about all inputs.", "anchors": ["include/base.h:DatablockType", "include/base.h:HModes", "include/dataheader.h:EncDataBlock", "include/dataheader.h:getDecType", "src/dataheader.cpp:DataHeader::setHeaderBytes"]}
{"id": "C88", "title": "Other processes acting during a call", "statement": "Other processes may change the files in any way before each single access of an API call (check, opening, measuring, reading, writing of one piece). If they leave the files the call is about alone, the call replies and leaves these files as if it ran alone; a file that the call does not write and the others leave alone is unchanged. A successful selectFile reports an empty file only if the file was missing or empty at some moment, and otherwise the sizes and the header it keeps are those the file had at moments of the call, sizes first; the two may belong to different contents. A save written in one piece with enough room ends with exactly the content to save, with no file, or with a file that selectFile refuses. A save written in several pieces can be mixed with another complete save of the same length: the mixture opens with the other password and gives data that was never saved. createFile and writeToFile(path) erase a file that another process stores between check and opening and report success; selectFile reports an empty file for one that vanishes in between; a file exchanged while it is selected is read with the old size, so part of its data is returned without an error.", "quantifier": "all states, files, contents, passwords, and all actions of other processes before each access", "why_tests_cant": "The interleavings and the actions of the others are unbounded; a test meets a few of them, and hardly ever the narrow ones.", "anchors": ["src/filehandler.cpp:isValidPath", "src/filehandler.cpp:createFile", "src/filehandler.cpp:update", "src/filehandler.cpp:getWriteStream", "src/api.cpp:selectFile", "src/api.cpp:writeToFile", "src/api.cpp:_getFileHandler"]}
{"id": "C89", "title": "Read errors, pipes and directories", "statement": "If reading a file fails somewhere, selectFile, getFileContent, getDecryptedData and writeToFile(path) give the same result as without the failure, or reply with an error (selectFile: ERR_FILEHANDLER_CREATION or ERR_NOT_ENOUGH_DATA, getFileContent: ERR_FILE_READ, getDecryptedData: ERR, writeToFile: ERR_FILEHANDLER_CREATION) and leave state and files as they were, so the call can be repeated; data that was only read in part is never returned. A pipe or device named like an encryption file, which has no positions, is selected as an empty file; a directory is refused with ERR_FILEHANDLER_CREATION unless its end is reported as 0.", "quantifier": "all states, files, contents, and all places at which a stream of a call can fail", "why_tests_cant": "Read errors do not happen on a test machine, and they can happen at every byte of every stream of a call.", "anchors": ["src/utility.cpp:readData", "src/filehandler.cpp:update", "src/filehandler.cpp:getAllBytes", "src/filehandler.cpp:getDataStream", "src/dataheader.cpp:DataHeader::setHeaderBytes", "src/blockchain.cpp:BlockChain::addData", "src/api.cpp:getDecryptedData"]}
{"id": "C90", "title": "What header objects answer after any sequence of calls", "statement": "For every sequence of calls, each setter and getter of DataHeaderParts, DataHeader, ChainHashTimed and the header settings answers exactly as the calls before it determine: a getter returns the last accepted value, or throws runtime_error (DataHeader: logic_error) if there is none; a mode out of range, an unusable chain hash or a value of a length other than that of the hash mode is refused with invalid_argument, a 256th block with length_error, a file size before the header is complete with logic_error and below the header length with invalid_argument; header bytes are only returned while nothing changed since they were computed; refused calls change nothing. Exception: setting another hash mode in DataHeaderParts keeps the old password validator and salt, so a complete object can hold values of the wrong length. A Bytes call that does not fit throws length_error, addStringToBytes runtime_error.", "quantifier": "all sequences of calls with all arguments, new objects and objects read from any file", "why_tests_cant": "The number of call sequences is unlimited, and the answer to a call depends on all calls before it.", "anchors": ["include/dataheader.h:setValidPasswordHash", "include/dataheader.h:setHashMode", "src/dataheader.cpp:DataHeader::setFileSize", "src/dataheader.cpp:DataHeader::getHeaderBytes", "src/dataheader.cpp:DataHeader::calcHeaderBytes", "src/dataheader.cpp:DataHeader::getDataHeaderParts", "include/chainhash_modes.h:ChainHashTimed", "src/utility.cpp:addStringToBytes"]}
{"id": "C91", "title": "Results a program keeps, and who owns the data", "statement": "Whatever a program does with the API and with the results it keeps, each access to a result is answered as its earlier steps say. The result of a failed call never gives a value: returnValue, returnRef and returnMove throw logic_error. So does the result of a successful changeSalt or writeToFile, which has no value. Other values can be read until returnMove was called, afterwards only through returnMove. The data of getDecryptedData and getFileData cannot be read with returnValue. It is given away at most once: handing it to encryptData with returnMove takes it only if encryptData succeeds. If encryptData fails, the program still has the same data, but only returnMove gives it. Handing over data that is already gone dereferences a null pointer in the state DECRYPTED and is refused in every other state.", "quantifier": "all programs of API calls and accesses to any of the results, in any order; all files and all changes to them between the calls", "why_tests_cant": "The answer depends on everything done with the result before, and the sequences are unlimited.", "anchors": ["include/error.h:returnValue", "include/error.h:returnRef", "include/error.h:returnMove", "include/error.h:createMove", "src/api.cpp:API::DECRYPTED::encryptData", "src/api.cpp:API::DECRYPTED::getFileData", "src/api.cpp:API::DECRYPTED::changeSalt", "src/api.cpp:API::ENCRYPTED::writeToFile"]}
{"id": "C92", "title": "Failed calls leave no trace, and every wrong password is the same", "statement": "What an API object answers from now on, and what it does to files, depends only on the calls since the last file was closed that succeeded and were no questions. Failed calls, among them a failed encryptData or writeToFile that did change members of the object, can be left out of the past of an object without any later difference. In particular a wrong password in verifyPassword changes nothing: it gets ERR_PASSWORD_INVALID, or ERR_TIMEOUT if the time limit strikes, and which of the two depends on the time limit and the clock but not on the password. Two wrong passwords are therefore answered in exactly the same way. After any number of wrong passwords everything goes on as if they had not been tried: there is no lock-out and no delay.", "quantifier": "all sequences of calls so far, with files that others change in between; all sequences of calls from then on; all numbers of wrong passwords", "why_tests_cant": "It compares two objects with different pasts over every possible future; a test compares a few.", "anchors": ["src/api.cpp:FILE_SELECTED::verifyPassword", "src/api.cpp:API::DECRYPTED::encryptData", "src/api.cpp:API::ENCRYPTED::writeToFile", "src/dataheader.cpp:DataHeader::setDataSize", "src/dataheader.cpp:DataHeader::calcHeaderBytes", "src/filehandler.cpp:FileHandler::getWriteStream"]}
{"id": "C93", "title": "Files whose chain hashes use no salt give each other away", "statement": "With chain hash mode 1 (CHAINHASH_NORMAL) in both chain hashes the check value in the header is the password hashed n1 + n2 times, and anyone can hash on from there. Hence, for the same password and hash function: (a) a file of n1 + n2 rounds gives everyone the data of every other file whose first chain hash has mode 1 and at least n1 + n2 rounds, so creating a new header with more rounds for the old password makes the file readable for everyone who kept the old file; (b) two such files are recognisable as having the same password; (c) whoever can write the file can replace it with data of their choice so that verifyPassword still takes the user's password, getDecryptedData returns the planted data, and what is saved afterwards is readable to them; (d) if only the second chain hash has mode 1, with one round, then a salt of zeros makes the file readable without anything else, so whoever writes zeros over the salt reads what is saved later.", "quantifier": "all hash functions with the right digest lengths, all headers, passwords, data and numbers of rounds, all file systems and clocks", "why_tests_cant": "It is about what somebody else can compute from the files and holds for every password and every number of rounds; a test knows only the password it uses.", "anchors": ["src/pwfunc.cpp:PwFunc::chainhash", "src/api.cpp:FILE_SELECTED::verifyPassword", "src/api.cpp:API::_createDataHeaderIters", "src/blockchain.cpp:BlockChain::BlockChain"]}
{"id": "C94", "title": "What a file handler answers after any sequence of calls", "statement": "The answers of a FileHandler, and what it does to files, follow from its past calls alone. isEmtpy and the sizes are those of the file at the last look, made by the constructor or by update(); asking for a stream to write sets both sizes to 0 but leaves isEmtpy as it was; an update() that throws has already changed the file size and isEmtpy, and keeps the old header size unless it got as far as reading the new one. update() throws exactly if the file is not empty and its two size fields do not fit, with the exception that belongs to the first check that fails. getAllBytes, getFirstBytes, getFileStream, getDataHeader and isDataHeader look at the file as it is now; getDataStream skips the remembered header size. After a good look and without a write since then, header size <= file size and getDataSize is their difference. It is false in general that getDataSize is at most getFileSize: after a failed update() it can be close to 2^64. getWriteStreamIfEmpty does not protect what was written through the same handler: any number of them succeed, and each destroys what the one before wrote. After a save the data stream starts with the header until update() is called.", "quantifier": "all sequences of calls on a handler, with files that others change, delete or lock in between; all contents", "why_tests_cant": "Which members an exception leaves behind and which observations are stale matters only for sequences of calls mixed with changes by others; a test runs a few of them.", "anchors": ["src/filehandler.cpp:FileHandler::FileHandler", "src/filehandler.cpp:FileHandler::update", "src/filehandler.cpp:FileHandler::getDataSize", "src/filehandler.cpp:FileHandler::getDataStream", "src/filehandler.cpp:FileHandler::getWriteStream", "src/filehandler.cpp:FileHandler::getWriteStreamIfEmpty", "src/filehandler.cpp:FileHandler::getAllBytes", "src/filehandler.cpp:FileHandler::getFirstBytes"]}
{"id": "C95", "title": "What a password check computes: digests, clock readings, and what its duration depends on", "statement": "verifyPassword and createDataHeader (with iterations) compute one digest per iteration of the two chain hashes. Every answer of verifyPassword other than the timeout costs exactly it1 + it2 digests, for right and for wrong passwords: there is no early rejection. Each digested text begins with the digest of the one before, so the digests cannot be computed side by side. For two passwords of the same length, right or wrong, the sequence of digested lengths and of clock readings is the same, so the duration of these steps says nothing about the password but its length. None of these calls computes more than 2*10^9 digests, whatever the selected file contains and whatever the limit. With a limit t > 0 the clock is read at least once every 1001 digests. createDataHeader does nothing after the first reading that has reached t. For verifyPassword this is false: if the reading between the two chain hashes is later than t, it computes the whole second chain hash.", "quantifier": "all histories of the API object, all files, passwords, limits, clock readings, salts and hash functions of fixed length", "why_tests_cant": "The number and order of hash computations is not visible in the answers of the API, and a claim about all passwords and all possible clock readings cannot be covered by measuring a few calls.", "anchors": ["src/api.cpp:FILE_SELECTED::verifyPassword", "src/pwfunc.cpp:PwFunc::chainhash", "src/chainhash_modes.cpp:ChainHashModes::performChainHash", "src/api.cpp:API::_createDataHeaderIters"]}
{"id": "C96", "title": "Which changes to a header the password check notices", "statement": "Someone who can write a .enc file and does not know the password: (a) can replace the data blocks, the encrypted data blocks and the salt; the password is still accepted, with the old salt the data are unchanged, with another salt getDecryptedData returns other data of the same length; (b) can raise the number of rounds of the second chain hash to anything up to 10^9, computing the new check value from the old one; the password stays the right one and the data stay the same, but every check now takes that many digests, and ERR_TIMEOUT is all the owner gets if the limit is too short for them. (c) If the chain hashes are changed in any other way and the check value is kept, then a password is accepted only if the checks under the old and the new header hash different inputs to the same digest, at the same distance from their ends, or if the shorter check is literally the end of the longer one; the latter happens, for example when the chain hashes use no salt and a round is moved from the first to the second.", "quantifier": "all files, headers, passwords, data, hash functions of fixed length, histories of the API object", "why_tests_cant": "A test changes a few bytes of a few files. That nothing but a collision or a shifted chain can make a changed header pass is a statement about all changes, and the missing authentication of the other parts is one about all of them too.", "anchors": ["src/api.cpp:FILE_SELECTED::verifyPassword", "src/api.cpp:PASSWORD_VERIFIED::getDecryptedData", "src/dataheader.cpp:DataHeader::setHeaderBytes", "src/pwfunc.cpp:PwFunc::chainhash"]}
{"id": "C97", "title": "What the log gives away", "statement": "main.cpp lets plog write everything from severity verbose on to data/log.txt. The log of every successful call of the API object (other than getRelevantFileNames) is determined by the header, sizes, paths, settings and time limits. Selecting a non-empty file, setting a password with createDataHeader and changeSalt write the hash mode, both chain hashes with their data, and the check value of the password: whoever reads the log, and never sees the file, can test a guessed password, and the test gives exactly the answers of verifyPassword; this also holds for a password that was set and never saved. Nothing else about secrets is written: two sessions of the same calls that differ in passwords, keys, check values and contents of data only, and get the same answers, write the same log except for the check values in two kinds of lines; both are below severity info, so a log of severity info and above is the same for both. A new password that isPasswordValid refuses leaves its first forbidden character (and its code) as a warning, or its length if all characters are allowed.", "quantifier": "all histories, files, passwords, data, headers, answers of the environment; both sessions in the same environment", "why_tests_cant": "That nothing else leaks is a statement about pairs of executions with all possible secrets; a test compares two logs. What a reader can do with the log holds for all headers and guesses.", "anchors": ["src/dataheader.cpp:DataHeader::setValidPasswordHashBytes", "src/dataheader.cpp:DataHeader::setChainHash1", "src/api.cpp:INIT::selectFile", "src/api.cpp:FILE_SELECTED::verifyPassword", "src/pwfunc.cpp:PwFunc::isPasswordValid", "src/main.cpp:main"]}
{"id": "C98", "title": "Which failures the log tells", "statement": "Every call of the API object that returns a failure writes a line of severity error or fatal to the log; a wrong password and an exceeded time limit write at least a warning. The exception is a call in a state that does not offer it (ERR_API_STATE_INVALID): its log is the one debug line that every call writes, so a log of severity info and above does not show it. Conversely a call that succeeds, other than getRelevantFileNames, writes no line of severity warning or above, except for the warning of readData when selectFile or writeToFile(path) opens an empty file. The whole log of a verifyPassword that rejects the password or runs out of time, and of a createDataHeader that runs out of time, is pinned: it names the chain hash that was given up and the round of that chain hash in which the time limit was noticed. The whole log of selecting a file with fitting sizes and a hash mode, a file mode or a mode of the first chain hash that does not exist is pinned as well: it shows the mode, the place where it is refused and the error, and of several such modes only one: the hash mode before the file mode before the chain hash. So is the log of selectFile and createFile for a path that is refused: it shows the path, its extension if that is the reason, and the error. The log of selecting a file whose sizes are wrong names the first wrong one.", "quantifier": "all states of the object, files, environments and arguments; for successful calls all histories", "why_tests_cant": "Each way to fail has its own statement; a test that provokes one failure says nothing about the others, and some need a failing environment.", "anchors": ["src/api.cpp:API::_getFileHandler", "src/api.cpp:FILE_SELECTED::verifyPassword", "src/api.cpp:DECRYPTED::encryptData", "src/api.cpp:ENCRYPTED::writeToFile", "src/utility.cpp:readData"]}
{"id": "C99", "title": "API objects side by side, moved and destroyed", "statement": "API objects are independent: in a program that creates, calls and destroys any number of them in any order, every call answers as if its object were the only one, and no freed memory is used. API objects can be moved (nothing forbids it), and a moved one is broken: every call on the old object except createDataHeader with incomplete settings is undefined; the first call of the new one is undefined if it reads the file, the header or the encrypted data that the object had (deleteFile, getFileContent, verifyPassword, getDecryptedData, changeSalt, writeToFile), and unselectFile is undefined if lines of severity verbose are logged; the new object does not leave the state it was moved in, so that every function which that state does not offer fails with ERR_API_STATE_INVALID for ever, whatever is called on the two objects; a file selected through the new object is selected in the old one, and logout or unselectFile through the new object brings the old one back to the start, which from then on works as if it had not been moved; once the old object is destroyed, every call of the new one that needs a member is undefined; after the move constructor, a successful verifyPassword, createDataHeader or logout makes destroying the new object undefined (its password hash is freed twice). A move followed by the destruction of both objects, in either order, goes unnoticed. The first call of the new object that needs none of its members (createFile, isFileEmpty, a function of another state, encryptData without a file mode, getRelevantFileNames of a directory without files) is answered as before the move, even if the old object is destroyed; all other calls are then undefined.", "quantifier": "all programs with any number of objects before the move, all calls on the two objects after it, all files and environments", "why_tests_cant": "A test moves an object in one situation; undefined behaviour need not show in it, and moving without further calls is harmless.", "anchors": ["include/api.h:API", "src/api.cpp:API::API", "src/bytes.cpp:Bytes::Bytes", "src/bytes.cpp:Bytes::operator=", "src/api.cpp:API::_unselectFile"]}
{"id": "C100", "title": "What the error messages tell the user", "statement": "Whenever a function of the API object fails, its message is determined as follows. A function called in a state that does not offer it answers with a sentence that names the function and the states that do, except createFile, deleteFile, unselectFile and createDataHeader (with iterations), whose sentences name another function or a state that does not exist. Errors about a path show the path that was passed or selected (only up to its first zero byte). All other errors, except those about the content of a file that is selected, have one of a few fixed messages per function, so that nothing of the password, the data or the settings is ever in a message (apart from exception texts in the verbose form), both timeouts read the same, and a file of the wrong size reads only 'FileHandler could not be created: '. A damaged file is described by the field that is missing or by the offending byte itself, as a raw character and never as its number, and the message never says which file it is. The verbose message quotes an exception or nothing, except that a missing field is said to be the exception 'setHeaderBytes', which was not thrown.", "quantifier": "all calls in all states, all arguments, files and environments", "why_tests_cant": "Tests see the messages of the failures they provoke; that no failure of any call shows a secret or another text is a statement about every failing path.", "anchors": ["include/error.h:getErrorMessage", "include/api.h:WorkflowState", "src/dataheader.cpp:DataHeader::setHeaderBytes", "src/filehandler.cpp:FileHandler::isValidPath", "src/api.cpp:FILE_SELECTED::verifyPassword", "src/api.cpp:API::_getFileHandler"]}
{"id": "C101", "title": "What encrypting and decrypting compute, and what a guess costs someone who knows how the data begin", "statement": "A successful getDecryptedData or encryptData computes, besides additions, exactly these digests in this order: for every block three for its pad (the next running key, the next running salt, the pad) and one over the plain block once it is full; without data still the three. For L bytes in blocks of n this is 4 per full block and 3 for a rest or for no data. Every digested text is n bytes long, and the clock is never read: what can be seen from outside (number and lengths of digests) depends on the length of the data alone, not on data, key or salt, and neither call can be limited in time. getDecryptedData never computes more than for the length noted when the file was selected; if the file has become shorter since, it answers an error after the blocks that are left. The iterations of the second chain hash do not slow down an attacker who knows how the data begin: a program that digests it1 + 3 texts per guess, and uses neither the second chain hash nor the validator, answers yes exactly for the guesses whose decryption begins with the known bytes (at most one block), and always for the password of the file.", "quantifier": "all histories of the API object, all headers, passwords, data, known beginnings and hash functions of fixed length", "why_tests_cant": "The digests are not visible in the answers of the API, and that no guess is misjudged by the shorter program is a statement about all passwords, files and hash functions.", "anchors": ["src/api.cpp:PASSWORD_VERIFIED::getDecryptedData", "src/api.cpp:DECRYPTED::encryptData", "src/blockchain.cpp:BlockChain::addData", "include/blockchain.h:SaltIterator::next", "src/block_encrypt.cpp:EncryptBlock::addData", "src/block_decrypt.cpp:DecryptBlock::addData"]}
{"id": "C102", "title": "Machines with the other byte order", "statement": "Bytes::fromLong and Bytes::toLong copy a number through memory, so what they do depends on the byte order of the machine. On each kind of machine a number comes back as it was written, a header is written in one definite layout, and the machine selects and reads back every header it has written, with the same contents. The layouts of the two kinds differ: on a machine that keeps the high byte first the sizes and iterations are in the file low byte first, against docs/dataheader.md. Every file shorter than 4311744512 bytes that one kind of machine has written is refused by the other kind, when it is selected and when it is decoded (the size field reads as another number); 4311744512 is the first size that reads the same both ways. A chain hash with numbers in its data (modes 3, 4, 5) is computed there with each number reversed, so converting the size fields is not enough to exchange files. On a machine that keeps the high byte first the length of an encrypted block is stored unmasked and getDecType returns the true type for any password, while encrypted blocks are still decrypted to what was encrypted; and get_random_byte with fewer than 8 bytes of entropy returns the lower bound always if the range is a power of two.", "quantifier": "both byte orders, all numbers, headers, files, chain hashes, blocks, passwords and random bytes", "why_tests_cant": "The tests run on one kind of machine; that files cannot be exchanged, and the lost masking and randomness, do not show on it.", "anchors": ["src/bytes.cpp:Bytes::fromLong", "src/bytes.cpp:Bytes::toLong", "src/dataheader.cpp:DataHeader::calcHeaderBytes", "src/filehandler.cpp:FileHandler::update", "src/chainhash_modes.cpp:ChainHashModes::performChainHash", "include/dataheader.h:EncDataBlock", "src/rng.cpp:RNG::get_random_byte"]}
{"id": "C103", "title": "What stays in memory that is given back", "statement": "docs/api.md says that logout deletes user information. No class overwrites memory before giving it back: every array that a program with Bytes objects gives back (by the end of an object, assignment, consumeBytes or addSize) still has the whole content of the object in it, and behind a shorter content set with setBytes the rest of the former content. When an API object drops a password hash - at logout, in its destructor, when a password is accepted and when a header with a new password is made - the hash is left in memory that was given back, and nothing the program does later with API objects, moved or not, overwrites it.", "quantifier": "all programs with Bytes objects that keep the rules of C49, all programs with any number of API objects", "why_tests_cant": "Memory that was given back cannot be inspected by a test without undefined behaviour, and that no call overwrites a hash is a statement about all programs.", "anchors": ["src/bytes.cpp:Bytes::operator=", "include/bytes.h:Bytes::~Bytes", "src/bytes.cpp:Bytes::addSize", "src/bytes.cpp:Bytes::consumeBytes", "src/bytes.cpp:Bytes::setBytes", "include/api.h:WorkflowState::logout", "src/api.cpp:FILE_SELECTED::verifyPassword"]}
{"id": "C104", "title": "Bytes objects when memory runs out", "statement": "If an array cannot be allocated at any points of a program, every operation on Bytes objects except the copy assignment, withU64 and addSize throws std::bad_alloc and leaves all objects as they were, with no array lost and none used wrongly; wrong arguments are still reported first, and the assignment of an object to itself succeeds. withU64 and addSize are noexcept and end the program. The copy assignment has deleted the old array by then: destroying the object, reading it, copying it or assigning to it once more is undefined behaviour, and no program, whatever it does, can end the life of all objects any more (setDeallocate and consumeBytes(Bytes) aside).", "quantifier": "all programs with Bytes objects that keep the rules of C49, all choices of the allocations that fail", "why_tests_cant": "Tests do not run out of memory, and that the damage cannot be undone is a statement about all continuations.", "anchors": ["src/bytes.cpp:Bytes::operator=", "src/bytes.cpp:Bytes::withU64", "src/bytes.cpp:Bytes::addSize", "src/bytes.cpp:Bytes::copySubBytes", "src/bytes.cpp:operator+"]}
{"id": "C105", "title": "How random values are distributed", "statement": "If all answers of the random generator are equally likely: of the 256^n answers with a buffer of n bytes, get_random_byte(lower, upper, n) turns exactly floor(256^n / (upper - lower)) into each value, and one more into each of the lowest 256^n mod (upper - lower) values. So low values are never less likely than high ones, no two values differ by more than one answer, and all are equally likely exactly if upper - lower is a power of two, whatever n is. The comment in the code that one byte is enough for a range of 255 is wrong: the lowest value is then twice as likely as every other. get_random_string(num) gives every string of num letters with the same probability, and the share of the answers for which k buffers are not enough is at most (1 - (52/256)^num)^k.", "quantifier": "all bounds, buffer sizes from 1 to 8, lengths and numbers of buffers", "why_tests_cant": "A test sees samples; that two values or strings are equally likely, or differ by one answer in 2^64, is a statement about the number of all answers.", "anchors": ["src/rng.cpp:RNG::get_random_byte", "src/rng.cpp:RNG::get_random_string", "src/bytes.cpp:Bytes::toLong"]}
{"id": "C106", "title": "No program can check a guessed password with fewer digests than the password check", "statement": "Take any program that calls a digest function as a black box, that may know the header and the guesses and everything derived from them, and that says for each guess correctly whether it opens the file, whatever the digest function is. Then, for every digest function, it has asked for every digest of both chain hashes of every guess (unless it asks for 2^200 or more). There is no discount for many guesses: for some digest function k different guesses cost at least k*(it1 + it2) digests, and that many are enough. So verifyPassword, which computes exactly these it1 + it2 digests (C95), cannot be improved, and neither rejecting nor accepting can be done early. In the same way the password hash cannot be had without every digest of the first chain hash.", "quantifier": "all programs, headers of all chain hash modes, guesses and hash functions of fixed length", "why_tests_cant": "This is a statement about all programs an attacker could write; a test can only run one of them.", "anchors": ["src/api.cpp:FILE_SELECTED::verifyPassword", "src/pwfunc.cpp:PwFunc::chainhash", "src/pwfunc.cpp:PwFunc::chainhashWithQuadraticCountSalt"]}
{"id": "C107", "title": "The shortest way to test how the decrypted data begin", "statement": "Take any program that calls a digest function as a black box and says correctly, whatever the digest function is, whether the data of a file begin with given bytes (at least one, at most a block) when they are decrypted with a guessed password. Then, for every digest function, it has asked for every digest of the first chain hash and for the three digests of the first pad; for some digest function these are it1 + 3 different ones, and that many are enough. So the attack of C101 is the best possible one, and the iterations of the first chain hash are what protects data with a known beginning. A program that decrypts data that are not empty needs at least the same digests.", "quantifier": "all programs, headers, encrypted data, known beginnings, guesses and hash functions of fixed length", "why_tests_cant": "This is a statement about all programs an attacker could write; a test can only run one of them.", "anchors": ["src/api.cpp:PASSWORD_VERIFIED::getDecryptedData", "src/blockchain.cpp:BlockChain::addData", "include/blockchain.h:SaltIterator::next", "src/pwfunc.cpp:PwFunc::chainhash"]}
{"id": "C108", "title": "Without the digests of the first chain hash, every content of the same length and every password is still possible", "statement": "Take any file with a readable header and encrypted data of any length, and any program that knows the file and calls the digest function as a black box. For every password of which it has not asked for all digests of the first chain hash, and for all data of the same length: there is a digest function that gives the same answers to everything the program asked (so the program answers the same), and for which this very file holds these data, protected by this password. So a file says nothing about the data but their length, and excludes no password, to someone who has not spent it1 digests on that password. Exceptions, which the statement leaves out: an encrypted salt of zeros together with a second chain hash whose first salt is empty (C93: such a file may be readable without password), data of which a full block before the last has the digest zero, and data that contain the missing text itself as a block.", "quantifier": "all programs, headers, encrypted data, passwords, contents and hash functions of fixed length", "why_tests_cant": "That something cannot be inferred from a file is a statement about all programs and all contents that fit the file; a test can only try some.", "anchors": ["src/api.cpp:DECRYPTED::encryptData", "src/api.cpp:ENCRYPTED::writeToFile", "src/blockchain.cpp:BlockChain::addData", "src/dataheader.cpp:DataHeader::getHeaderBytes", "src/pwfunc.cpp:PwFunc::chainhash"]}
{"id": "C109", "title": "A password hash that was learned once opens every later save, until a new header is created", "statement": "Let any number of API objects work on the same files, in any order and with any of them dying at any moment. Every readable header in a file is, up to its salt, a header that stood in one of the files at the beginning or that was made by a successful createDataHeader since: changing the salt, saving, saving to other paths, logging out, reopening and crashing never give a file another password hash. So whoever once learned the password hash of a header (from memory, C103, or from verifyPassword's own process) reads every file saved with it afterwards: a program that gets only the file and the password hash, never the password, gives exactly the data that were last saved, with at most one digest for eight bytes of the file, however many iterations were chosen. The only exception is that the file was saved by someone who opened it with a different password, which is then a digest collision.", "quantifier": "all numbers of objects, all interleavings of their calls, all points of death, all files, headers, passwords, data and hash functions of fixed length", "why_tests_cant": "That a key stays good is a statement about all sequences of calls on all objects, and about a reader outside of the program; a test can only follow some sequences.", "anchors": ["src/api.cpp:DECRYPTED::changeSalt", "src/api.cpp:DECRYPTED::encryptData", "src/api.cpp:ENCRYPTED::writeToFile", "src/api.cpp:FILE_SELECTED::verifyPassword", "src/api.cpp:DECRYPTED::createDataHeader"]}
{"id": "C110", "title": "The salt stands in a file as it was drawn, and the cipher is not the documented one", "statement": "The documentation says that the salt in a file is encrypted and has to be recovered with the password hash (README.md), by subtraction (docs/doc.md) or by exclusive or (docs/dataheader.md), and that a block of the file is the data plus the password hash plus the salt (README.md). None of this is what the program does. Over all runs of any number of API objects, the bytes at the place of the salt in a readable file are exactly the random bytes that a successful changeSalt or createDataHeader has drawn, or those of a file that was there at the beginning: they do not depend on the password. Changing the salt changes only these bytes of the header. Reading a file as documented does not give the data. It is good that the program does otherwise: with the documented subtraction the first block of a file is the data plus the stored salt, for every password hash, so it could be read without a password; with the documented exclusive or the lowest bit of every byte could.", "quantifier": "all numbers of objects, all interleavings of their calls, all points of death, all files, headers, salts, password hashes, data and hash functions of fixed length", "why_tests_cant": "Where the bytes of a salt come from is a statement about all runs, and that a documented scheme would reveal data whatever the key is one about all keys; tests compare single files.", "anchors": ["src/api.cpp:DECRYPTED::changeSalt", "src/api.cpp:DECRYPTED::createDataHeader", "src/block_encrypt.cpp:EncryptBlock", "src/dataheader.cpp:DataHeader::setEncSalt"]}
{"id": "C111", "title": "What the comparison operators compare", "statement": "operator== of Bytes holds exactly for equal contents, whatever the capacities, and operator!=, which is written separately, is its negation. operator== of TimedResult holds exactly for equal numbers of iterations and equal digests, and that of Format exactly for the same mode. operator== of ChainHashData holds exactly if both objects have all their parts and the bytes of the parts, one after the other, are the same. For two objects of one mode that means the same parts, and chain hashes with equal data, mode and iterations give the same results. It is no equality in general: an object whose parts are not all set is not equal to itself, and objects of different modes can be equal though their chain hashes differ (eight bytes as a constant salt and as a start number).", "quantifier": "all byte strings, modes, and data objects made by any sequences of calls, accepted or refused", "why_tests_cant": "That an operator is an equality is a statement about all pairs of objects; a test compares some pairs.", "anchors": ["src/bytes.cpp:Bytes::operator==", "src/bytes.cpp:Bytes::operator!=", "src/chainhash_data.cpp:operator==", "src/format.cpp:operator==", "include/pwfunc.h:operator=="]}
{"id": "C112", "title": "Time-based header creation has a second defect behind the first", "statement": "createDataHeader with time settings dies at its first statement (C14). The code behind that statement would not work either: run as though the statement had succeeded, with settings made by the setters, it never produces a header, for any settings, password and clocks. For an object of another file mode it reports ERR_FILEMODE_INVALID; otherwise both chain hash descriptions are always made, and the first chain hash then either goes on as long as the clock stays below the chosen time or, once the clock has reached it, ends the process. The second chain hash is not reached, so its clock makes no difference.", "quantifier": "all settings made by any sequence of setter calls, all passwords, clocks, random bytes and file modes", "why_tests_cant": "The code is reached in no run of the program, so no test of the program executes it; that no clock or setting yields a header is a statement about all of them.", "anchors": ["src/api.cpp:API::_createDataHeaderTime", "src/chainhash_modes.cpp:ChainHashModes::performChainHash", "include/chainhash_modes.h:ChainHashTimed"]}
{"id": "C113", "title": "Any number of sittings, and what the file remembers of them", "statement": "A sitting opens a file with its password, replaces the data, perhaps draws a new salt or creates a new header with a new password, saves and logs out. If nothing outside hinders them (the file can be read and written, no time limit is exceeded, less than 2 GiB of data, room on the disk), then any number of sittings, one after the other and started from any state of an API object, succeed in every call; each sitting is shown exactly the data of the one before, the file ends with the last data under the last password, and no other file changes. The file remembers nothing else: sittings that end with the same header, password and data leave the same bytes, whatever happened before. So saving the old data again without a new salt brings the old file back byte for byte, and whoever sees two versions of a file with one header sees whether their data are the same; with a new salt the versions differ in any case.", "quantifier": "all lists of sittings, data, passwords, settings, salts, starting states", "why_tests_cant": "The claim is about sequences of sittings of any length, proved by induction; tests run a few of them.", "anchors": ["src/api.cpp:API::FILE_SELECTED::verifyPassword", "src/api.cpp:API::DECRYPTED::encryptData", "src/api.cpp:API::DECRYPTED::changeSalt", "src/api.cpp:API::ENCRYPTED::writeToFile"]}
{"id": "C114", "title": "How often renewed salts repeat, and what a repetition does", "statement": "Take sittings that each renew the salt before saving. They change nothing in the header but the salt, and the header after each is the old one with the salt drawn last. Of the byte sequences a generator can deliver for k salts of n bytes, exactly 256^(k n) - M (M - 1) ... (M - k + 1) with M = 256^n contain one salt twice; that is at most k (k - 1) / 2 in M, and all of them once k exceeds M. Two versions of the file written in such sittings are the same bytes exactly if they hold the same data and their two salts were the same draw; so as long as no salt repeats, the versions never show that old data came back.", "quantifier": "all numbers of sittings, salt lengths, delivered bytes, data, passwords, headers", "why_tests_cant": "The claim counts the sequences of a random generator for any number of sittings; tests see single draws.", "anchors": ["src/api.cpp:API::DECRYPTED::changeSalt", "src/dataheader.cpp:DataHeader::setHeaderParts", "src/bytes.cpp:Bytes::fillrandom"]}
{"id": "C115", "title": "How many passwords the policy admits, and that the API does not apply it", "statement": "isPasswordValid admits exactly 90^n passwords of n bytes for n from 8 (to 2^31 - 1), and none that are shorter. Of the printable ASCII characters it refuses exactly the blank, both quotation marks, the backslash, the circumflex, the grave accent and the bar; of all other bytes it admits exactly the two of the section sign in UTF-8, also one without the other. Whoever decides for all admitted passwords of 8 or 9 bytes which of them opens a file needs, for some digest function, 90^n times the digests of a password check. But the API object never asks isPasswordValid: in every state, createDataHeader gives one and the same answer for all passwords, so an empty password is accepted wherever a long one is.", "quantifier": "all passwords, lengths, headers, programs with a black-box digest, histories, settings", "why_tests_cant": "Counting all passwords, bounding all programs and comparing the answers for all passwords in all states are beyond any number of runs.", "anchors": ["src/pwfunc.cpp:PwFunc::isPasswordValid", "src/api.cpp:API::_createDataHeaderIters", "src/api.cpp:API::EMPTY_FILE_SELECTED::createDataHeader", "include/settings.h:VALID_PASS_CHARSET"]}
{"id": "C116", "title": "A file can be cut, lengthened and altered in the middle without the password", "statement": "The length of the header stands unencrypted in bytes 8 to 15 of a file, and nothing ties the data to the header. Someone without the password can therefore cut the data off after any byte: the file still opens with the right password and shows exactly the first bytes. They can put any bytes behind the file: it opens and shows the old data followed by as many further bytes. And if they know bytes at the start of a block in the middle, they can turn them into any others of the same number: the file opens and shows the data before, the chosen bytes, and something of the old length after them. Only the size field and the bytes concerned change, and no call reports anything.", "quantifier": "all headers, passwords, data, places to cut, appended bytes, known and chosen bytes, worlds and times", "why_tests_cant": "It holds for every way to alter a file and for every header and digest; tests try single files.", "anchors": ["src/api.cpp:API::PASSWORD_VERIFIED::getDecryptedData", "src/filehandler.cpp:FileHandler::getDataHeader"]}
{"id": "C117", "title": "The structs that hand out decrypted data give each pointer once, and nothing more afterwards", "statement": "WorkflowDecStruct, which the public header offers for decoded files, gives an address at most once, however many structs there are and however they are moved, and only addresses that were put in. As long as it has given nothing, getFileData gives exactly what setFileData put in last, with the changes made behind getFileDataRef, if the error struct is successful, and getDataHeader gives the header set last. But once it has given its data it never gives any again: what setFileData puts in afterwards can be reached by no call, until another struct is moved into its place. A new struct answers every question with a logic_error until its public error struct is set to success; a missing header then shows as bad_optional_access. FileDataStruct holds a mode exactly if the valid one was set; getCopy gives a copy with that mode and the data assigned last, throws without a mode, and follows a null pointer without data.", "quantifier": "all sequences of calls on any number of structs, all moves between them, all data and headers", "why_tests_cant": "It is about every sequence of calls and moves; the struct has no tests and nothing in the library uses it.", "anchors": ["include/api.h:WorkflowDecStruct", "include/file_data.h:FileDataStruct::getCopy"]}
{"id": "C118", "title": "What the in-memory decoder answers, for every buffer", "statement": "setHeaderBytes(Bytes&) gives, for every buffer and in both builds, exactly the header, the error code or the failed assertion of a small reader that walks through the bytes with a 16-bit position: ERR_NOT_ENOUGH_DATA only if the two size fields are cut or the stated header is longer than the buffer, a code of its own for each invalid mode, for a chain hash whose data does not fit or whose length byte is below its fixed part, for each chain hash with an invalid number of iterations and for a stated file size below the header, and ERR for everything else, such as an empty block, on which the decoder of streams ends the process. Ten codes can come back; ERR_CHAINHASH_DATABLOCK_ALREADY_COMPLETED never does. A Release build always answers; a Debug build answers the same or stops at an assertion. The size the buffer states for its file is not compared with anything but the header. If a Debug build accepts a whole file, the decoder of streams reads the same header from it in both builds.", "quantifier": "all byte strings of any length, both builds, all random sources", "why_tests_cant": "The code for each malformed buffer depends on every byte and on positions that wrap around at 65536; tests try a few buffers.", "anchors": ["src/dataheader.cpp:DataHeader::setHeaderBytes", "docs/dataheader.md"]}
{"id": "C119", "title": "Which error codes each API function can return", "statement": "For each function of the API there is a closed list of error codes: whatever calls came before and whatever files, clocks and permissions are met, a failed call returns a code of its function's list, and each code of each list is returned by some call, in both builds. Every function but logout can answer ERR_API_STATE_INVALID. selectFile can answer twelve codes more, writeToFile(path) six, writeToFile() only ERR_FILE_NOT_FOUND and ERR_FILE_NOT_OPEN; isFileSelectedEmpty, unselectFile and the salt change nothing more. The success type is TIMEOUT exactly for ERR_TIMEOUT, and FAIL otherwise. Twelve codes that the program uses, among them ERR_HEADERSIZE_FILESIZE_MISMATCH, ERR_FILEDATA_INVALID and ERR_WRONG_WORKFLOW, never come back from any call.", "quantifier": "all histories of calls, arguments, file systems, clocks, permissions, both builds; random numbers and reads of open files succeed", "why_tests_cant": "That a code never comes back is a statement about all inputs in all states; tests show only codes that do.", "anchors": ["src/api.cpp:API::INIT::selectFile", "src/api.cpp:API::ENCRYPTED::writeToFile", "include/error.h", "src/dataheader.cpp:DataHeader::setHeaderBytes"]}
{"id": "C120", "title": "A longer time limit", "statement": "If createDataHeader does not run out of time with a limit, it gives the same answer with every longer limit and with no limit, under the same circumstances. For verifyPassword this is true unless the time t' that the API has measured after the first chain hash lies above the shorter limit and not above the longer one: then the longer limit can fail where the shorter one succeeds, and it does so exactly if it equals t' or the second chain hash reads a clock that has reached the rest. If the clock readings stay below 2^64 ms minus t', verifyPassword without a limit answers as with any limit that was not exceeded.", "quantifier": "all histories, passwords, settings, pairs of limits, clocks, both builds", "why_tests_cant": "The failing pairs of limits depend on how long the first chain hash takes on the machine; a test with one clock sees no pair.", "anchors": ["src/api.cpp:API::FILE_SELECTED::verifyPassword", "src/api.cpp:API::_createDataHeaderIters"]}
{"id": "C121", "title": "The two builds", "statement": "A Debug build (build_all.sh) and a Release build (install.sh) give the same answer to every API call and leave the same files, except that selectFile and getRelevantFileNames of a Debug build can end the process at an assertion. Every session with a Debug build is, call for call, a session with a Release build. A session with a Release build is one with a Debug build if no file was there, when files were selected or listed, whose sizes fit and whose header announces a wrong length. selectFile of a Debug build ends at an assertion exactly if the selected file is such a file and can be read. No file that the library writes is one, not even if the disk is full.", "quantifier": "all histories, calls, files, circumstances, builds", "why_tests_cant": "Tests run in one build and compare nothing with the other one; the files on which the builds differ are not those that the library writes.", "anchors": ["src/dataheader.cpp:DataHeader::setHeaderBytes", "src/api.cpp:API::INIT::selectFile", "src/api.cpp:API::INIT::getRelevantFileNames", "src/chainhash_data.cpp:ChainHashData::addBytes"]}
{"id": "C122", "title": "The field that a damaged file lacks", "statement": "If selectFile reports that there is not enough data, the message names the field in which the file really ends: everything before that field is a well formed header that fits the size fields, and what is left is too short for exactly the named field (or, for a chain hash of mode 4, the announced length is below the 8 bytes that the mode needs). Only one field can be meant. Conversely, selecting a file that can be read, whose sizes fit and in which nothing else is wrong before it ends is reported with that field. In particular, if the header of a file is cut after any byte and its size fields are adapted, the field that is named is the one to which the first missing byte belongs. The missing number of encrypted blocks is never reported this way, because such a file is rejected for its size before.", "quantifier": "all files, paths, builds, random sources", "why_tests_cant": "There are fifteen fields, a file can end at every byte, and the number and the lengths of the blocks before the end are arbitrary; a test tries a few cuts of one file.", "anchors": ["src/dataheader.cpp:DataHeader::setHeaderBytes", "src/api.cpp:API::INIT::selectFile"]}
{"id": "C123", "title": "Strings and byte arrays", "statement": "Every string, also one with zero bytes, comes back unchanged from stringToBytes and bytesToString; an array that is turned into a string and back equals the old one, and two arrays made of strings are equal exactly if the strings are. Adding strings one after the other with addStringToBytes gives the array of their concatenation if all of them fit and throws otherwise, wherever the text is cut; strings that are refused leave no trace, so that exactly those are kept that fit into what the kept ones before them left. An array made of a string is full: only the empty string can be added.", "quantifier": "all strings, arrays, sequences of additions", "why_tests_cant": "The unit tests convert two strings; they cannot try all contents or all ways to cut a text into pieces around the limit.", "anchors": ["src/utility.cpp:stringToBytes", "src/utility.cpp:bytesToString", "src/utility.cpp:addStringToBytes"]}
{"id": "C124", "title": "One file, one meaning", "statement": "The file format is unambiguous: a byte string is the layout of at most one header with at most one size field, pair of length bytes and body, and no header is a beginning of another one, not even if size or length fields are wrong or data blocks are empty. The reader of a Debug build looks at every byte: two files that it reads as the same header and the same body are the same file. Two files that a Release build reads as the same header and body have the same length and differ at most in the header size field and in the length byte of a chain hash whose mode fixes the length.", "quantifier": "all byte strings, headers, builds, random sources", "why_tests_cant": "The statement compares every file with every other file; a test compares a few.", "anchors": ["src/dataheader.cpp:DataHeader::setHeaderBytes", "src/dataheader.cpp:DataHeader::calcHeaderBytes"]}
