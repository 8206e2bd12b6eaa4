PARTIAL = set()
NOTES = {
 'C22': 'JSON: with a protobuf runtime that wraps every failure in ParseError; refuted for older runtimes (C22_json_older_protobuf_refuted)',
}
