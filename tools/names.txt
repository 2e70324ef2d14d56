decode encode Duration Ref PoisonError Utf8Error TryFromIntError BorrowError SystemTimeError Send Sync Unpin UnwindSafe RefUnwindSafe
