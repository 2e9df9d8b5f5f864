rocq/.nia.cache
rocq/.lia.cache
